(** Running the generated Go parsers: values and structures. *)
From Coq Require Import String List Arith NArith ZArith Bool Lia Floats.SpecFloat.
From Verif Require Import Base M_Naming M_Errors M_Schema M_Dec M_Num M_TypeGraph M_Walk M_Strftime M_Duration M_GoImports M_GoGen M_AutoID S_Scope M_Scope M_GoScope
  S_Conform S_Common S_GoGen P_Common P_GoBase P_AutoID P_Scope P_BlockScope P_GoScope
  S_Compare S_GoTyping M_GoTyping P_GoTyping.
From Verif Require Import S_GoRun S_GoMemory P_GoRun P_GoRunParse.
Import ListNotations.
Open Scope list_scope.
Local Open Scope nat_scope.

(** Maps are visited in the order of their entries. *)
Definition in_turn (A : Type) (_ : nat) (_ : str) (l : list (str * A)) : list (str * A) := l.

Section Parsers.
  Variable X : gext.
  Variable printed : str -> list (rv (g_time X)) -> str.
  Variable duration_to : Z -> str.
  Variable structs : list (str * list (str * gtype)).
  Variable functions : list gfunction.
  Variable globals : list (str * str).
  Variable G : graph.
  Notation val := (rv (g_time X)).
  Notation gval := (goval (g_time X)).
  Notation mem := (memory X).
  Notation eval := (eval X printed go_dur_from duration_to structs functions globals).
  Notation place_of := (place_of X printed go_dur_from duration_to structs functions globals).
  Notation arguments := (arguments X printed go_dur_from duration_to structs functions globals).
  Notation called := (S_GoRun.call X printed go_dur_from duration_to structs functions globals).
  Notation values := (values X printed go_dur_from duration_to structs functions globals).
  Notation assign := (assign X printed go_dur_from duration_to structs functions globals).
  Notation exec := (exec X printed go_dur_from duration_to structs functions globals).
  Notation ranging := (ranging X printed go_dur_from duration_to structs functions globals).
  Notation library := (library X printed go_dur_from duration_to).
  Notation zero_is := (zero_is X structs).
  Notation ev := (ev X).
  Notation evals r H e o := (ev (fun n => eval n r e) H o).
  Notation places r H e o := (ev (fun n => place_of n r e) H o).
  Notation runs r H ss o := (ev (fun n => exec n r ss) H o).
  Notation says := (says X printed).
  Notation rendered := (rendered X printed).

  (** The memory when all the instances are allocated, the older cells which change, and the cell of the errors *)
  Variable H0 : mem.
  Variable M : list nat.
  Variable ec : nat.
  Hypothesis HecM : In ec M.
  Hypothesis Hec0 : ec < length H0.
  Notation json := (json_in H0 M).
  Notation errors_at H es := (errors_at X printed H ec es).
  (** The registries: of the model, and in the memory *)
  Variable R : gregistries.
  Variable inst : addr -> nat.
  Variable mv : cls -> val.
  Definition registry_of (c : cls) : list (str * addr) := match lookup (field (c_plural c)) R with Some reg => reg | None => [] end.
  Definition entries_of_registry (reg : list (str * addr)) : list (str * val) := map (fun ka => (fst ka, RPointer (inst (snd ka), []))) reg.
  Hypothesis Hregistries : forall n c, find_class G n = Some c ->
    (mv c = RNil /\ registry_of c = []) \/ exists a, mv c = RMap a /\ ~ In a M /\ nth_error H0 a = Some (REntries (entries_of_registry (registry_of c))).
  (** The instances which are registered *)
  Definition known (o : addr) : Prop := exists c k, In c (g_classes G) /\ lookup k (registry_of c) = Some o.

  (** * What is parsed *)

  Section Held.
    Variable H : mem.
    Variable lo : nat.
    (** A parsed value: the memory and the model; its cells are those from [lo] on. *)
    Inductive held : ty -> val -> gval -> Prop :=
    | held_bool b : held TBool (RBool b) (M_GoGen.GBool b)
    | held_int bs z : held (TInt bs) (RInt z) (M_GoGen.GInt z)
    | held_float bs f : held (TFloat bs) (RFloat f) (GFloat f)
    | held_str p s : held (TStr p) (RStr s) (GStr s)
    | held_path p s : held (TPath p) (RStr s) (GStr s)
    | held_date f x : held (TDate f) (RTime x) (GTime x)
    | held_time f x : held (TTime f) (RTime x) (GTime x)
    | held_datetime f x : held (TDatetime f) (RTime x) (GTime x)
    | held_zone s : held TTimeZone (RZone s) (GZone s)
    | held_duration d : held TDuration (RDuration d) (GDuration d)
    | held_array t mn mx a ws vs : lo <= a -> nth_error H a = Some (RItems ws) -> Forall2 (held t) ws vs -> held (TArray t mn mx) (RSlice a) (GList vs)
    | held_map t a ws vs : lo <= a -> nth_error H a = Some (REntries ws) -> NoDup (keys vs) ->
        Forall2 (fun kw kv => fst kw = fst kv /\ held t (snd kw) (snd kv)) ws vs -> held (TMap t) (RMap a) (M_GoGen.GMap vs)
    | held_ref n o : known o -> held (TClass n) (RPointer (inst o, [])) (GRef o)
    | held_embed n e ws vs : find_embed G n = Some e ->
        (forall p, In p (e_props e) -> exists w v, lookup (field (p_name p)) ws = Some w /\ lookup (field (p_name p)) vs = Some v /\ held_property p w v) ->
        held (TEmbed n) (RStruct ws) (GStruct vs)
    with held_property : prop -> val -> gval -> Prop :=
    | held_required p w v : p_optional p = false -> held (p_type p) w v -> held_property p w v
    | held_nillable p w v : p_optional p = true -> is_pointer_type (p_type p) = true -> held (p_type p) w v -> held_property p w v
    | held_optional p a w v : p_optional p = true -> is_pointer_type (p_type p) = false -> lo <= a -> nth_error H a = Some w -> held (p_type p) w v ->
        held_property p (RPointer (a, [])) v
    | held_none p : p_optional p = true -> held_property p RNil GNil.
  End Held.

  (** What is there before: the places of structures have their fields *)
  Inductive shaped : ty -> val -> Prop :=
  | shaped_other t u : (forall n, t <> TEmbed n) -> shaped t u
  | shaped_embed n e ws : find_embed G n = Some e ->
      (forall p, In p (e_props e) -> exists w, lookup (field (p_name p)) ws = Some w /\ (p_optional p = true -> w = RNil) /\ (p_optional p = false -> shaped (p_type p) w)) ->
      shaped (TEmbed n) (RStruct ws).
  Definition fresh_field (p : prop) (w : val) : Prop := (p_optional p = true -> w = RNil) /\ (p_optional p = false -> shaped (p_type p) w).

  (** The types which the code can be written for *)
  Definition known_pattern (p : str) : Prop := exists x, pattern_variable (enumerate_patterns G) p = Some x /\ lookup x globals = Some p.
  Fixpoint usable (avail : cls -> Prop) (t : ty) : Prop :=
    match t with
    | TStr (Some p) | TPath (Some p) => known_pattern p
    | TArray t _ _ | TMap t => usable avail t
    | TClass n => exists c, find_class G n = Some c /\ avail c
    | TEmbed n => (exists e, find_embed G n = Some e) /\ forall c, In c (embed_references G n) -> avail c
    | _ => True
    end.
  Hypothesis Hzero : forall avail t, usable avail t -> exists z, shaped t z /\ zero_is (go_ty t) z.

  (** * The memory *)
  Definition lasting (n : nat) (r : scope) (H : mem) (P : scope -> mem -> Prop) : Prop := forall r' H', grows n r r' -> keeps [ec] H H' -> P r' H'.
  Lemma lasting_here n r H P : lasting n r H P -> P r H.
  Proof. intros HL. apply HL; [apply grows_refl|apply keeps_refl]. Qed.
  Lemma grows_weaken n m r r' : n <= m -> grows m r r' -> grows n r r'.
  Proof. intros Hn Gr. apply (grows_trans n m r r r'); [exact Hn|apply grows_refl|exact Gr]. Qed.
  Lemma lasting_later n m r H r' H' P : n <= m -> lasting n r H P -> grows n r r' -> keeps [ec] H H' -> lasting m r' H' P.
  Proof. intros Hn HL Gr K r2 H2 Gr2 K2. apply HL; [now apply (grows_trans n m r r')|now apply (keeps_trans _ _ H')]. Qed.

  Lemma keeps_M H H' W : keeps M H0 H -> keeps W H H' -> (forall a, In a W -> In a M \/ length H0 <= a) -> keeps M H0 H'.
  Proof. intros K1 K2 HW. now apply (keeps_fresh M W H0 H). Qed.
  Lemma keeps_M' W W' (Ha Hb Hc : mem) : keeps W Ha Hb -> keeps W' Hb Hc -> (forall a, In a W' -> In a W \/ length Ha <= a) -> keeps W Ha Hc.
  Proof. intros K1 K2 HW. now apply (keeps_fresh W W' Ha Hb). Qed.
  Lemma keeps_nil {T} W (H H' : list (rv T)) : keeps [] H H' -> keeps W H H'.
  Proof. apply keeps_more. intros ? []. Qed.
  Lemma keeps_two W (H : mem) v w : keeps W H (H ++ [v; w]).
  Proof. change [v; w] with ([v] ++ [w]). rewrite app_assoc. apply (keeps_trans _ _ (H ++ [v])); apply keeps_app. Qed.

  Section HeldKeeps.
    Variable H H' : mem.
    Variable lo lo' : nat.
    Hypothesis Hlo : lo' <= lo.
    Hypothesis HK : forall a v, lo <= a -> nth_error H a = Some v -> nth_error H' a = Some v.
    Fixpoint held_change t w v (h : held H lo t w v) {struct h} : held H' lo' t w v
    with held_property_change p w v (h : held_property H lo p w v) {struct h} : held_property H' lo' p w v.
    Proof.
      - destruct h as [| | | | | | | | | |t mn mx a ws vs Ha E HF|t a ws vs Ha E Hnd HF|m o Ho|m e ws vs Ef Hf]; try (constructor; fail).
        + apply held_array with (ws := ws); [lia|apply HK; assumption|]. clear E. induction HF; constructor; auto.
        + apply held_map with (ws := ws); [lia|apply HK; assumption|assumption|]. clear E Hnd. induction HF as [|? ? ? ? [E Hh] HF IH]; constructor; auto.
        + constructor. assumption.
        + apply held_embed with (e := e); [assumption|]. intros p Hp. destruct (Hf p Hp) as (w & v & E1 & E2 & Hh). exists w, v. auto.
      - destruct h.
        + apply held_required; auto.
        + apply held_nillable; auto.
        + eapply held_optional; eauto. lia.
        + apply held_none; auto.
    Qed.
  End HeldKeeps.
  Lemma held_keeps W H H' lo lo' t w v : keeps W H H' -> (forall a, In a W -> a < lo) -> lo' <= lo -> held H lo t w v -> held H' lo' t w v.
  Proof. intros [_ K] HW Hlo. apply held_change; [exact Hlo|]. intros a u Ha E. apply K; [exact E|]. intros Hin. apply HW in Hin. lia. Qed.
  Lemma held_property_keeps W H H' lo lo' p w v : keeps W H H' -> (forall a, In a W -> a < lo) -> lo' <= lo -> held_property H lo p w v -> held_property H' lo' p w v.
  Proof. intros [_ K] HW Hlo. apply held_property_change; [exact Hlo|]. intros a u Ha E. apply K; [exact E|]. intros Hin. apply HW in Hin. lia. Qed.

  (** * Errors *)
  Lemma rendered_add es ers ref m text : rendered es ers -> says m text -> rendered (gadd ref m es) (go_add ers (ref, text)).
  Proof.
    intros [EC HF] Hs. unfold gadd, go_add. rewrite EC, <- (Forall2_len _ _ _ HF). destruct (_ || _); [|split; assumption].
    split; [reflexivity|]. cbn [go_values]. apply Forall2_app; [exact HF|]. constructor; [|constructor]. now split.
  Qed.
  Lemma rendered_full es ers : rendered es ers -> go_full ers = go_full es.
  Proof. intros [EC HF]. unfold go_full. now rewrite EC, <- (Forall2_len _ _ _ HF). Qed.
  Lemma rendered_empty es ers : rendered es ers -> go_empty ers = go_empty es.
  Proof. intros [EC HF]. unfold go_empty. now rewrite <- (Forall2_len _ _ _ HF). Qed.
  Lemma errors_keeps W H H' es : keeps W H H' -> ~ In ec W -> errors_at H es -> errors_at H' es.
  Proof. intros [_ K] HW (ers & E & Hr). exists ers. split; [now apply K|exact Hr]. Qed.
  Lemma not_empty ref m es : go_empty (gadd ref m es) = false.
  Proof.
    destruct es as [cap l]. unfold go_empty, gadd, go_add. cbn [go_cap go_values].
    destruct ((cap =? 0)%N || (N.of_nat (length l) <? cap)%N) eqn:E; cbn [go_values].
    - apply N.eqb_neq. rewrite app_length. cbn. lia.
    - apply orb_false_iff in E as [E1 E2]. apply N.eqb_neq in E1. apply N.ltb_ge in E2. apply N.eqb_neq. lia.
  Qed.

  (** * Running the code of a value *)

  (** The target is in the cell [a], where [v0] was; [put u] is there when the target is set to [u]. *)
  Definition comes (n : nat) (r : scope) (H : mem) (a : nat) (v0 : val) (put : val -> val) (t : ty) (code : list gstmt) (lo : nat) (res : gout (gval * gerrs)) : Prop :=
    match res with
    | Panic _ => forall rest, runs r H (code ++ rest) Panicked
    | Done (x, es') => exists r' H' c', grows n r r' /\ keeps [a; ec] H H' /\ errors_at H' es' /\ nth_error H' a = Some c' /\
        (c' = v0 \/ exists u, c' = put u) /\ (go_empty es' = true -> exists u, c' = put u /\ held H' lo t u x) /\
        forall rest o, runs r' H' rest o -> runs r H (code ++ rest) o
    end.
  (** What the code of a value finds *)
  Definition context (registry : cls -> gexpr) (avail : cls -> Prop) (value : gexpr) (w : val) (tg : gexpr) (a : nat) (put : val -> val) (ref : list gexpr) (parts : list str)
             (r : scope) (H : mem) : Prop :=
    evals r H value (Out (w, H)) /\ evals r H (ow "errors") (Out (RPointer (ec, []), H)) /\
    (forall c, avail c -> evals r H (registry c) (Out (mv c, H))) /\
    Forall2 (fun e p => evals r H e (Out (RStr p, H))) ref parts /\
    forall u, ev (fun n => assign n r tg u) H (Out (tt, replace a (put u) H)).
  Definition target_place (tg : gexpr) (a : nat) (v0 : val) (put : val -> val) (t : ty) (n : nat) (r : scope) (H : mem) : Prop :=
    forall m, t = TEmbed m -> exists path s, lasting n r H (fun r' H' => places r' H' tg (Out ((a, path), H'))) /\ part path v0 = Some s /\ shaped t s /\
      forall u, with_part path u v0 = Some (put u).

  Definition value_runs (v : jval) : Prop := forall t w registry avail value tg ref parts n code n' r H a v0 put es reft,
    json v w -> usable avail t -> parse_code G registry t value tg ref n = (code, n') -> keeps M H0 H -> In a M \/ length H0 <= a -> a <> ec ->
    errors_at H es -> nth_error H a = Some v0 -> parts <> [] -> join (s_ "/") parts = reft ->
    lasting n r H (context registry avail value w tg a put ref parts) -> target_place tg a v0 put t n r H ->
    comes n r H a v0 put t code (length H) (go_value X G in_turn R v t reft es).

  (** * Rules for [comes] *)
  Ltac rule L := eapply (L X printed go_dur_from duration_to structs functions globals).
  Lemma comes_lower n r H a v0 put t code lo lo' res : lo' <= lo -> comes n r H a v0 put t code lo res -> comes n r H a v0 put t code lo' res.
  Proof.
    intros Hlo. destruct res as [[x es']|]; [|auto]. intros (r' & H' & c' & H1 & H2 & H3 & H4 & H5 & H6 & H7). exists r', H', c'.
    repeat (split; [assumption|]). split; [|exact H7]. intros E. destruct (H6 E) as (u & -> & Hh). exists u. split; [reflexivity|].
    apply (held_keeps [] H' H' lo); [apply keeps_refl|intros ? []|exact Hlo|exact Hh].
  Qed.
  Lemma comes_weaken n m r H a v0 put t code lo res : n <= m -> comes m r H a v0 put t code lo res -> comes n r H a v0 put t code lo res.
  Proof.
    intros Hn. destruct res as [[x es']|]; [|auto]. intros (r' & H' & c' & H1 & H2). exists r', H', c'. split; [now apply (grows_weaken n m)|exact H2].
  Qed.
  (** Something is run before. *)
  Lemma comes_after n r H a v0 put t pre code lo res r1 H1 : grows n r r1 -> keeps [a; ec] H H1 ->
    (forall rest o, runs r1 H1 rest o -> runs r H (pre ++ rest) o) -> comes n r1 H1 a v0 put t code lo res -> comes n r H a v0 put t (pre ++ code) lo res.
  Proof.
    intros Gr K Hpre Hc. destruct res as [[x es']|].
    - destruct Hc as (r' & H' & c' & E1 & E2 & E3 & E4 & E5 & E6 & E7). exists r', H', c'.
      split; [now apply (grows_trans n n r r1)|]. split; [now apply (keeps_trans _ _ H1)|]. repeat (split; [assumption|]).
      intros rest o Ho. rewrite <- app_assoc. apply Hpre, E7, Ho.
    - intros rest. rewrite <- app_assoc. apply Hpre, Hc.
  Qed.
  Lemma comes_define2 n r H a v0 put t s1 s2 k1 k2 e v w code lo res : In (s_ s1) go_stems -> In (s_ s2) go_stems -> n <= k1 -> n <= k2 ->
    ev (fun n => values n r e 2) H (Out ([v; w], H)) ->
    comes n ((num_var s2 k2, S (length H)) :: (num_var s1 k1, length H) :: r) (H ++ [v; w]) a v0 put t code lo res ->
    comes n r H a v0 put t (SDefine [Some (num_var s1 k1); Some (num_var s2 k2)] e :: code) lo res.
  Proof.
    intros S1 S2 L1 L2 Ev Hc. eapply (comes_after _ _ _ _ _ _ _ [SDefine [Some (num_var s1 k1); Some (num_var s2 k2)] e]); [..|exact Hc].
    - apply grows_cons; [exact S2|exact L2|]. apply grows_cons; [exact S1|exact L1|]. apply grows_refl.
    - apply keeps_two.
    - intros rest o Ho. cbn [app]. rule run_define2; [exact Ev|exact Ho].
  Qed.
  Lemma comes_define n r H H1 a v0 put t s k e v code lo res : In (s_ s) go_stems -> n <= k -> keeps [] H H1 -> evals r H e (Out (v, H1)) ->
    comes n ((num_var s k, length H1) :: r) (H1 ++ [v]) a v0 put t code lo res -> comes n r H a v0 put t (SDefine [Some (num_var s k)] e :: code) lo res.
  Proof.
    intros S1 L1 K Ev Hc. eapply (comes_after _ _ _ _ _ _ _ [SDefine [Some (num_var s k)] e]); [..|exact Hc].
    - apply grows_cons; [exact S1|exact L1|]. apply grows_refl.
    - apply (keeps_trans _ _ H1); [now apply keeps_nil|apply keeps_app].
    - intros rest o Ho. cbn [app]. rule run_define; [exact Ev|exact Ho].
  Qed.
  Lemma comes_if n r H a v0 put t e (b : bool) yes no lo res : evals r H e (Out (RBool b, H)) ->
    comes n r H a v0 put t (if b then yes else no) lo res -> comes n r H a v0 put t [SIf e yes no] lo res.
  Proof.
    intros Ev Hc. destruct res as [[x es']|].
    - destruct Hc as (r' & H' & c' & E1 & E2 & E3 & E4 & E5 & E6 & E7). exists r, H', c'. split; [apply grows_refl|]. repeat (split; [assumption|]).
      intros rest o Ho. cbn [app]. rule run_if; [exact Ev| |exact Ho]. rewrite <- (app_nil_r (if b then yes else no)). apply E7. rule run_nil.
    - intros rest. cbn [app]. rule run_if_panics; [exact Ev|]. rewrite <- (app_nil_r (if b then yes else no)). apply Hc.
  Qed.
  Lemma comes_assign n r H a v0 put t tg e u lo x es : evals r H e (Out (u, H)) -> ev (fun n => assign n r tg u) H (Out (tt, replace a (put u) H)) ->
    nth_error H a = Some v0 -> a <> ec -> a < lo -> errors_at H es -> (go_empty es = true -> held H lo t u x) -> comes n r H a v0 put t [SAssign [tg] e] lo (Done (x, es)).
  Proof.
    intros Ev As Ha Hne Hlo He Hh. exists r, (replace a (put u) H), (put u). split; [apply grows_refl|].
    assert (K : keeps [a] H (replace a (put u) H)) by (apply keeps_replace; [left; now left|apply keeps_refl]).
    split; [revert K; apply keeps_more; intros z [<-|[]]; now left|].
    split; [apply (errors_keeps [a] H); [exact K|intros [->|[]]; contradiction|exact He]|].
    split; [apply nth_replace_same; eapply nth_some_lt; exact Ha|]. split; [right; now exists u|].
    split; [intros E; exists u; split; [reflexivity|]; apply (held_keeps [a] H _ lo lo); [exact K|intros z [<-|[]]; exact Hlo|lia|now apply Hh]|].
    intros rest o Ho. cbn [app]. rule run_assign; [exact Ev|exact As|exact Ho].
  Qed.
  Lemma texts_strings (parts : list str) : texts X (map (@RStr _) parts) = Some parts.
  Proof. induction parts as [|p parts IH]; [reflexivity|]. cbn. unfold texts in IH. now rewrite IH. Qed.
  Lemma eval_joined r H ref parts : Forall2 (fun e p => evals r H e (Out (RStr p, H))) ref parts ->
    evals r H (joined ref) (Out (RStr (join (s_ "/") parts), H ++ [RItems (map (@RStr _) parts)])).
  Proof.
    intros HF. unfold joined, M_GoTyping.call. rule eval_call.
    - rule args_cons.
      + rule eval_strings. rule args_all. instantiate (1 := map (@RStr _) parts). clear -HF. induction HF; cbn; constructor; auto.
      + rule args_cons; [rule eval_text|rule args_nil].
    - rule call_library; [reflexivity|]. unfold andthen. rewrite (items_of X _ _ (map (@RStr _) parts)); [|apply nth_app_new].
      unfold andthen. rewrite texts_strings. reflexivity.
  Qed.
  (** An error is added, and a block goes on. *)
  Lemma run_report r H H1 es eref ref text about vs m : evals r H (ow "errors") (Out (RPointer (ec, []), H)) -> errors_at H es ->
    evals r H eref (Out (RStr ref, H1)) -> keeps [] H H1 ->
    Forall2 (fun e v => evals r H1 e (Out (v, H1))) about vs -> says m (printed text vs) ->
    exists H', keeps [ec] H H' /\ errors_at H' (gadd ref m es) /\ forall rest o, runs r H' rest o -> runs r H (complain eref text about :: rest) o.
  Proof.
    intros Ee (ers & E & Hr) Er K HF Hs. assert (E1 : nth_error H1 ec = Some (RErrors ers)) by (apply K; [exact E|intros []]).
    exists (replace ec (RErrors (go_add ers (ref, printed text vs))) H1).
    split; [apply keeps_replace; [left; now left|now apply keeps_nil]|]. split.
    - exists (go_add ers (ref, printed text vs)). split; [apply nth_replace_same; eapply nth_some_lt; exact E1|]. now apply rendered_add.
    - intros rest o Ho. unfold complain. rule run_add; [exact Ee| |exact E1|exact Ho].
      rule args_cons; [exact Er|]. rule args_cons; [|rule args_nil]. unfold M_GoTyping.call. rule eval_call.
      + rule args_cons; [rule eval_text|]. rule args_all. exact HF.
      + rule call_library; reflexivity.
  Qed.
  Lemma comes_report n r H a v0 put t ref parts text about vs m es lo (x : gval) : evals r H (ow "errors") (Out (RPointer (ec, []), H)) -> errors_at H es ->
    Forall2 (fun e p => evals r H e (Out (RStr p, H))) ref parts -> nth_error H a = Some v0 -> a <> ec ->
    (forall H', keeps [] H H' -> Forall2 (fun e v => evals r H' e (Out (v, H'))) about vs) -> says m (printed text vs) ->
    comes n r H a v0 put t [report ref text about] lo (Done (x, gadd (join (s_ "/") parts) m es)).
  Proof.
    intros Ee He HF Ha Hne Hab Hs.
    destruct (run_report r H (H ++ [RItems (map (@RStr _) parts)]) es (joined ref) (join (s_ "/") parts) text about vs m Ee He) as (H' & K & He' & Hrun);
      [now apply eval_joined|apply keeps_app|apply Hab, keeps_app|exact Hs|].
    exists r, H', v0. split; [apply grows_refl|]. split; [revert K; apply keeps_more; intros z [<-|[]]; right; now left|]. split; [exact He'|].
    split; [apply K; [exact Ha|intros [<-|[]]; now apply Hne]|]. split; [now left|]. split; [now rewrite not_empty|]. intros rest o Ho. cbn [app]. now apply Hrun.
  Qed.

  (** * Values without parts *)
  Section Atom.
    Variable registry : cls -> gexpr.
    Variable avail : cls -> Prop.
    Variable value tg : gexpr.
    Variable w : val.
    Variable a : nat.
    Variable put : val -> val.
    Variable ref : list gexpr.
    Variable parts : list str.
    Variable n : nat.
    Notation ctx := (context registry avail value w tg a put ref parts).
    Variable t : ty.
    Variable v0 : val.
    Hypothesis Hne : a <> ec.

    Lemma ctx_value r H : lasting n r H ctx -> forall H', keeps [ec] H H' -> evals r H' value (Out (w, H')).
    Proof. intros HL H' K. apply (HL r H' (grows_refl _ _) K). Qed.
    Lemma parse_as_fails r H es cast type text rest m (x : gval) lo z : In (s_ cast) go_stems -> lasting n r H ctx -> errors_at H es -> nth_error H a = Some v0 ->
      has_type X w type = false -> zero_is type z -> says m (printed (s_ text) [w]) ->
      comes n r H a v0 put t (parse_as cast type text value ref n rest) lo (Done (x, gadd (join (s_ "/") parts) m es)).
    Proof.
      intros Hcast HL He Ha Ht Hz Hs. unfold parse_as. destruct (lasting_here _ _ _ _ HL) as (C1 & _).
      eapply comes_define2; [exact Hcast|stem|lia|lia|rule values_no_assert; [exact C1|exact Ht|exact Hz]|].
      assert (HL' : lasting n ((num_var "ok" n, S (length H)) :: (num_var cast n, length H) :: r) (H ++ [z; RBool false]) ctx).
      { apply (lasting_later n n r H); [lia|exact HL| |apply keeps_two]. apply grows_cons; [stem|lia|]. apply grows_cons; [exact Hcast|lia|]. apply grows_refl. }
      eapply comes_if; [rule eval_not; rule eval_var; [apply cell_here|]; change [z; RBool false] with ([z] ++ [RBool false : val]); rewrite app_assoc;
        replace (S (length H)) with (length (H ++ [z])) by (rewrite app_length; cbn; lia); apply nth_app_new|]. cbn [negb].
      destruct (lasting_here _ _ _ _ HL') as (_ & D2 & _ & D4 & _).
      eapply comes_report; [exact D2|eapply errors_keeps; [apply (keeps_two [])|intros []|exact He]|exact D4|now apply nth_app_l|exact Hne| |exact Hs].
      intros H' K. constructor; [|constructor]. apply (ctx_value _ _ HL'). now apply keeps_nil.
    Qed.
    Lemma parse_as_works r H cast type text rest res lo : In (s_ cast) go_stems -> lasting n r H ctx -> has_type X w type = true ->
      (lasting n ((num_var "ok" n, S (length H)) :: (num_var cast n, length H) :: r) (H ++ [w; RBool true]) ctx ->
       nth_error (H ++ [w; RBool true]) (length H) = Some w ->
       comes n ((num_var "ok" n, S (length H)) :: (num_var cast n, length H) :: r) (H ++ [w; RBool true]) a v0 put t rest lo res) ->
      comes n r H a v0 put t (parse_as cast type text value ref n rest) lo res.
    Proof.
      intros Hcast HL Ht Hrest. unfold parse_as. destruct (lasting_here _ _ _ _ HL) as (C1 & _).
      eapply comes_define2; [exact Hcast|stem|lia|lia|rule values_assert; [exact C1|exact Ht]|].
      eapply comes_if; [rule eval_not; rule eval_var; [apply cell_here|]; change [w; RBool true] with ([w] ++ [RBool true : val]); rewrite app_assoc;
        replace (S (length H)) with (length (H ++ [w])) by (rewrite app_length; cbn; lia); apply nth_app_new|]. cbn [negb].
      apply Hrest; [apply (lasting_later n n r H); [lia|exact HL| |apply keeps_two]; apply grows_cons; [stem|lia|]; apply grows_cons; [exact Hcast|lia|]; apply grows_refl|].
      rewrite nth_error_app2 by lia. now rewrite Nat.sub_diag.
    Qed.
  End Atom.

  Lemma wrong_type v w type : json v w ->
    (match type, v with GBool, JBool _ | GFloat64, JFloat _ | GString, JStr _ | S_GoTyping.GMap GAny, JObj _ | GSlice GAny, JArr _ => False | _, _ => True end) ->
    has_type X w type = false.
  Proof.
    intros Hj Hn. pose proof (json_kind _ _ _ _ Hj) as Hk. destruct v, w; cbn in Hk; try discriminate; destruct type as [| | | | | | |x|x|[]|[]]; cbn in *; try reflexivity; contradiction.
  Qed.
  Lemma zero_simple type z : (forall n, zero X structs (S n) type = Some z) -> zero_is type z.
  Proof. intros E. exists 1. intros [|n] Hn; [lia|]. apply E. Qed.

  Section Atoms.
    Variable registry : cls -> gexpr.
    Variable avail : cls -> Prop.
    Variable value tg : gexpr.
    Variable w : val.
    Variable a : nat.
    Variable put : val -> val.
    Variable ref : list gexpr.
    Variable parts : list str.
    Variable n : nat.
    Notation ctx := (context registry avail value w tg a put ref parts).
    Variable v0 : val.
    Hypothesis Hne : a <> ec.
    Variable r : scope.
    Variable H : mem.
    Variable es : gerrs.
    Hypothesis HL : lasting n r H ctx.
    Hypothesis He : errors_at H es.
    Hypothesis Ha : nth_error H a = Some v0.
    Notation reft := (join (s_ "/") parts).
    Let Hal : a < length H. Proof. eapply nth_some_lt; exact Ha. Qed.

    (** Once the value is cast *)
    Section Cast.
      Variable r1 : scope.
      Variable H1 : mem.
      Hypothesis Gr : grows n r r1.
      Hypothesis K : keeps [] H H1.
      Lemma here_ctx : ctx r1 H1.
      Proof. apply HL; [exact Gr|now apply keeps_nil]. Qed.
      Lemma here_errors : errors_at H1 es.
      Proof. now apply (errors_keeps [] H). Qed.
      Lemma here_cell : nth_error H1 a = Some v0.
      Proof. apply K; [exact Ha|intros []]. Qed.
      Lemma cast_report t text about vs m (x : gval) lo : (forall H', keeps [] H1 H' -> Forall2 (fun e v => evals r1 H' e (Out (v, H'))) about vs) -> says m (printed text vs) ->
        comes n r1 H1 a v0 put t [report ref text about] lo (Done (x, gadd reft m es)).
      Proof.
        intros Hab Hs. destruct here_ctx as (_ & D2 & _ & D4 & _). eapply comes_report; [exact D2|exact here_errors|exact D4|exact here_cell|exact Hne|exact Hab|exact Hs].
      Qed.
      Lemma cast_assign t e u x : evals r1 H1 e (Out (u, H1)) -> held H1 (length H) t u x -> comes n r1 H1 a v0 put t [SAssign [tg] e] (length H) (Done (x, es)).
      Proof.
        intros Ev Hh. destruct here_ctx as (_ & _ & _ & _ & D5). eapply comes_assign; [exact Ev|apply D5|exact here_cell|exact Hne|exact Hal|exact here_errors|auto].
      Qed.
      Variable x : thing.
      Variable c : nat.
      Variable cv : val.
      Hypothesis Hc : cell_of r1 x = Some c.
      Hypothesis Hv : nth_error H1 c = Some cv.
      Lemma cast_shown : forall H', keeps [] H1 H' -> Forall2 (fun e v => evals r1 H' e (Out (v, H'))) [XVar x] [cv].
      Proof. intros H' K'. constructor; [|constructor]. rule eval_var; [exact Hc|]. apply K'; [exact Hv|intros []]. Qed.
      Lemma cast_var : evals r1 H1 (XVar x) (Out (cv, H1)).
      Proof. rule eval_var; [exact Hc|exact Hv]. Qed.
    End Cast.

    Lemma bounds_run t r1 H1 c cv cmp verb b (x : gval) : grows n r r1 -> keeps [] H H1 -> cell_of r1 (num_var "cast" n) = Some c -> nth_error H1 c = Some cv ->
      (forall m, compared X cv (RInt m) = Some (cmp m)) ->
      (forall op m, says (GExpectedBound op m) (printed (s_ "expected " ++ op ++ s_ " " ++ dec_Z m ++ s_ ", but got: " ++ s_ verb) [cv])) ->
      held H1 (length H) t cv x ->
      comes n r1 H1 a v0 put t (check_bounds verb b ref n [SAssign [tg] (vr "cast" n)]) (length H) (gcheck_bounds X b cmp x reft es).
    Proof.
      intros Gr K Hc Hv Hcmp Hs Hh.
      assert (Hset : comes n r1 H1 a v0 put t [SAssign [tg] (vr "cast" n)] (length H) (Done (x, es))).
      { eapply cast_assign; [exact Gr|exact K|exact (cast_var r1 H1 _ _ _ Hc Hv)|exact Hh]. }
      assert (Hbad : forall op z rest, decides op (cmp z) = false ->
                comes n r1 H1 a v0 put t (check_bound op verb (Some z) ref n rest) (length H) (Done (GZero, gadd reft (GExpectedBound (s_ (order_text op)) z) es))).
      { intros op z rest E. unfold check_bound. eapply comes_if.
        - rule eval_not. rule eval_order; [exact (cast_var r1 H1 _ _ _ Hc Hv)|rule eval_number|exact (Hcmp z)].
        - rewrite E. eapply cast_report; [exact Gr|exact K|exact (cast_shown r1 H1 _ _ _ Hc Hv)|apply Hs]. }
      assert (Hgood : forall op z rest res, decides op (cmp z) = true -> comes n r1 H1 a v0 put t rest (length H) res ->
                comes n r1 H1 a v0 put t (check_bound op verb (Some z) ref n rest) (length H) res).
      { intros op z rest res E Hrest. unfold check_bound. eapply comes_if.
        - rule eval_not. rule eval_order; [exact (cast_var r1 H1 _ _ _ Hc Hv)|rule eval_number|exact (Hcmp z)].
        - rewrite E. exact Hrest. }
      unfold check_bounds, gcheck_bounds, gop_min, gop_max.
      assert (Hover : forall z, over (b_exmin b) (cmp z) = decides (if b_exmin b then IsGreater else IsAtLeast) (cmp z)) by (intros z; destruct (b_exmin b), (cmp z) as [[]|]; reflexivity).
      assert (Hunder : forall z, under (b_exmax b) (cmp z) = decides (if b_exmax b then IsLess else IsAtMost) (cmp z)) by (intros z; destruct (b_exmax b), (cmp z) as [[]|]; reflexivity).
      assert (Hmin : forall z rest, decides (if b_exmin b then IsGreater else IsAtLeast) (cmp z) = false ->
                comes n r1 H1 a v0 put t (check_bound (if b_exmin b then IsGreater else IsAtLeast) verb (Some z) ref n rest) (length H)
                  (Done (GZero, gadd reft (GExpectedBound (if b_exmin b then s_ ">" else s_ ">=") z) es))).
      { intros z rest E. apply (Hbad _ z rest) in E. destruct (b_exmin b); exact E. }
      assert (Hmax : forall z rest, decides (if b_exmax b then IsLess else IsAtMost) (cmp z) = false ->
                comes n r1 H1 a v0 put t (check_bound (if b_exmax b then IsLess else IsAtMost) verb (Some z) ref n rest) (length H)
                  (Done (GZero, gadd reft (GExpectedBound (if b_exmax b then s_ "<" else s_ "<=") z) es))).
      { intros z rest E. apply (Hbad _ z rest) in E. destruct (b_exmax b); exact E. }
      destruct (b_min b) as [mn|], (b_max b) as [mx|]; rewrite ?Hover, ?Hunder; [| | |exact Hset].
      - destruct (decides _ (cmp mn)) eqn:E1; cbn [negb]; [|now apply Hmin]. apply Hgood; [exact E1|].
        destruct (decides _ (cmp mx)) eqn:E2; cbn [negb]; [|now apply Hmax]. now apply Hgood.
      - destruct (decides _ (cmp mn)) eqn:E1; cbn [negb]; [|now apply Hmin]. now apply Hgood.
      - destruct (decides _ (cmp mx)) eqn:E2; cbn [negb]; [|now apply Hmax]. now apply Hgood.
    Qed.

    Variable v : jval.
    Hypothesis Hj : json v w.
    Ltac fails zz := eapply (parse_as_fails registry avail value tg w a put ref parts n _ v0 Hne) with (z := zz);
      [stem|exact HL|exact He|exact Ha|eapply wrong_type; [exact Hj|exact I]|now apply zero_simple|eapply says_type; [exact (json_kind _ _ _ _ Hj)|reflexivity]].
    Ltac works := eapply (parse_as_works registry avail value tg w a put ref parts n _ v0 Hne); [stem|exact HL|cbn in Hj; rewrite Hj; reflexivity|].

    Lemma bool_runs : comes n r H a v0 put TBool (parse_as "cast" GBool "expected a bool, but got: %T" value ref n [SAssign [tg] (vr "cast" n)]) (length H)
      (go_boolean X v reft es).
    Proof.
      destruct v eqn:Ev; cbn [go_boolean]; unfold greport, gret; try (fails (RBool false : val)).
      works. intros HL1 Hc. eapply cast_assign; [grow|apply keeps_two|rule eval_var; [cells|exact Hc]|]. cbn in Hj. rewrite Hj. constructor.
    Qed.
    Lemma float_runs b : comes n r H a v0 put (TFloat b) (parse_as "cast" GFloat64 "expected a float64, but got: %T" value ref n (check_bounds "%f" b ref n [SAssign [tg] (vr "cast" n)])) (length H)
      (go_float X b v reft es).
    Proof.
      destruct v eqn:Ev; cbn [go_float]; unfold greport; try (fails (RFloat (S754_zero false) : val)).
      works. intros HL1 Hc. cbn in Hj. eapply bounds_run; [grow|apply keeps_two|cells|exact Hc|..].
      - intros m. rewrite Hj. reflexivity.
      - intros op m. rewrite Hj. eapply says_float. reflexivity.
      - rewrite Hj. constructor.
    Qed.
    Lemma int_runs b : comes n r H a v0 put (TInt b) (fst (parse_code G registry (TInt b) value tg ref n)) (length H) (go_integer X b v reft es).
    Proof.
      cbn [parse_code fst]. destruct v eqn:Ev; cbn [go_integer]; unfold greport; try (fails (RFloat (S754_zero false) : val)).
      works. intros HL1 Hc. cbn in Hj. rewrite Hj in Hc |- *.
      set (r1 := (num_var "ok" n, S (length H)) :: (num_var "fcast" n, length H) :: r) in *. set (H1 := H ++ [RFloat f; RBool true]) in *.
      assert (Gr : grows n r r1) by (unfold r1; grow). assert (K1 : keeps [] H H1) by apply keeps_two.
      assert (Hcell : cell_of r1 (num_var "fcast" n) = Some (length H)) by (unfold r1; cells).
      pose proof (cast_var r1 H1 _ _ _ Hcell Hc) as Hf.
      eapply comes_if.
      { rule eval_equal; [exact Hf| |].
        - unfold M_GoTyping.call. rule eval_call; [rule args_cons; [exact Hf|rule args_nil]|rule call_library; reflexivity].
        - reflexivity. }
      rewrite same_truncated. destruct (is_trunc f); cbn [negb].
      2: { eapply cast_report; [exact Gr|exact K1|exact (cast_shown r1 H1 _ _ _ Hcell Hc)|now apply says_whole]. }
      eapply comes_if.
      { rule eval_or.
        - rule eval_order; [exact Hf|rule eval_number|reflexivity].
        - intros _. rule eval_order; [exact Hf|rule eval_number|reflexivity].
        - reflexivity. }
      assert (E : forall m, num_const m = m -> float_cmp f m = cmp_float_Z f m) by (intros m E; unfold float_cmp; now rewrite E).
      rewrite (E (2 ^ 63)%Z), (E (- 2 ^ 63)%Z) by (vm_compute; reflexivity). clear E.
      replace (decides IsAtLeast (cmp_float_Z f (2 ^ 63)) || decides IsLess (cmp_float_Z f (- 2 ^ 63))) with (over false (cmp_float_Z f (2 ^ 63)) || under true (cmp_float_Z f (- 2 ^ 63)))
        by (destruct (cmp_float_Z f (2 ^ 63)) as [[]|], (cmp_float_Z f (- 2 ^ 63)) as [[]|]; reflexivity).
      destruct (over false _ || under true _).
      { eapply cast_report; [exact Gr|exact K1|exact (cast_shown r1 H1 _ _ _ Hcell Hc)|now apply says_overflow]. }
      assert (Hset : forall es', es' = es -> comes n r1 H1 a v0 put (TInt b) [SAssign [tg] (XConvert GInt64 (vr "fcast" n))] (length H) (Done (M_GoGen.GInt (trunc_Z f), es'))).
      { intros es' ->. eapply cast_assign; [exact Gr|exact K1|rule eval_convert; exact Hf|constructor]. }
      assert (Hbounds : comes n r1 H1 a v0 put (TInt b) (SDefine [Some (num_var "cast" n)] (XConvert GInt64 (vr "fcast" n)) :: check_bounds "%d" b ref n [SAssign [tg] (vr "cast" n)]) (length H)
                (gcheck_bounds X b (fun m => Some (Z.compare (trunc_Z f) m)) (M_GoGen.GInt (trunc_Z f)) reft es)).
      { eapply comes_define; [stem|lia|apply keeps_refl|rule eval_convert; exact Hf|]. eapply bounds_run with (cv := RInt (trunc_Z f)).
        - apply grows_cons; [stem|lia|exact Gr].
        - apply (keeps_trans _ _ H1); [exact K1|apply keeps_app].
        - apply cell_here.
        - apply nth_app_new.
        - reflexivity.
        - intros op m. eapply says_int. reflexivity.
        - constructor. }
      unfold gcheck_bounds, gret in *. destruct (b_min b), (b_max b); try exact Hbounds. now apply Hset.
    Qed.

    (** Texts *)
    Lemma texts_fail t rest lo (x : gval) : (forall s, v <> JStr s) ->
      comes n r H a v0 put t (parse_as "cast" GString "expected a string, but got: %T" value ref n rest) lo (Done (x, gadd reft (GExpectedType (s_ "a string") (gtype_of v)) es)).
    Proof. intros Hs. destruct v; try (fails (RStr [] : val)). now destruct (Hs s). Qed.
    Lemma text_or_not : (exists s, v = JStr s) \/ forall s, v <> JStr s.
    Proof. destruct v; try (right; discriminate). left. now exists s. Qed.
    Definition r_cast : scope := (num_var "ok" n, S (length H)) :: (num_var "cast" n, length H) :: r.
    Definition m_cast (s : str) : mem := H ++ [RStr s; RBool true].
    Lemma texts_work t rest lo res s : v = JStr s ->
      (grows n r r_cast -> keeps [] H (m_cast s) -> cell_of r_cast (num_var "cast" n) = Some (length H) -> nth_error (m_cast s) (length H) = Some (RStr s) ->
       evals r_cast (m_cast s) (vr "cast" n) (Out (RStr s, m_cast s)) -> comes n r_cast (m_cast s) a v0 put t rest lo res) ->
      comes n r H a v0 put t (parse_as "cast" GString "expected a string, but got: %T" value ref n rest) lo res.
    Proof.
      intros Ev Hrest. rewrite Ev in Hj. cbn in Hj. works. intros HL1 Hc. rewrite Hj in Hc |- *.
      assert (Hcell : cell_of r_cast (num_var "cast" n) = Some (length H)) by (unfold r_cast; cells).
      apply Hrest; [unfold r_cast; grow|apply keeps_two|exact Hcell|exact Hc|exact (cast_var _ _ _ _ _ Hcell Hc)].
    Qed.
    Lemma held_text s p H' lo : held H' lo (TStr p) (RStr s) (GStr s) /\ held H' lo (TPath p) (RStr s) (GStr s).
    Proof. split; constructor. Qed.
    Lemma str_runs t p : t = TStr p \/ t = TPath p -> usable avail t -> comes n r H a v0 put t (fst (parse_code G registry t value tg ref n)) (length H) (go_string X p v reft es).
    Proof.
      intros Ht Hu.
      assert (Hheld : forall H' s, held H' (length H) t (RStr s) (GStr s)) by (intros H' s; destruct (held_text s p H' (length H)); destruct Ht as [->| ->]; assumption).
      replace (fst (parse_code G registry t value tg ref n)) with (fst (parse_code G registry (TStr p) value tg ref n)) by (now destruct Ht as [->| ->]).
      assert (Hk : match p with Some q => known_pattern q | None => True end) by (destruct Ht as [->| ->]; destruct p; exact Hu). clear Ht Hu.
      cbn [parse_code fst].
      destruct text_or_not as [[s Ev]|Hno].
      2: { replace (go_string X p v reft es) with (@Done (gval * gerrs) (GZero, gadd reft (GExpectedType (s_ "a string") (gtype_of v)) es)); [now apply texts_fail|].
           destruct v; try reflexivity. now destruct (Hno s). }
      rewrite Ev. cbn [go_string]. unfold greport, gret.
      eapply texts_work; [exact Ev|]. intros Gr K1 Hcell Hc Hs. destruct p as [q|].
      - destruct Hk as (y & E1 & E2). unfold pattern_matches. rewrite E1. eapply comes_if.
        + rule eval_not. unfold meth. rule eval_method; [rule eval_global; exact E2|rule args_cons; [exact Hs|rule args_nil]|reflexivity].
        + destruct (g_match X q s); cbn [negb].
          * eapply cast_assign; [exact Gr|exact K1|exact Hs|apply Hheld].
          * eapply cast_report; [exact Gr|exact K1|exact (cast_shown _ _ _ _ _ Hcell Hc)|now apply says_match].
      - eapply cast_assign; [exact Gr|exact K1|exact Hs|apply Hheld].
    Qed.
    (** A function of a library, with an error or a value *)
    Lemma library_runs t s f args vs res text about abouts m (x : gval) (o : option val) bad why : v = JStr s -> library f vs = Some (done X res) ->
      res = match o with Some u => [u; RNil] | None => [bad; RError why] end ->
      Forall2 (fun e v => evals r_cast (m_cast s) e (Out (v, m_cast s))) args vs ->
      (forall H', keeps [] (m_cast s ++ [bad; RError why]) H' ->
        Forall2 (fun e v => evals ((num_var "err" n, S (length (m_cast s))) :: (num_var "target" n, length (m_cast s)) :: r_cast) H' e (Out (v, H'))) about abouts) ->
      says m (printed text abouts) -> (forall u, o = Some u -> forall H' lo, held H' lo t u x) ->
      comes n r H a v0 put t (parse_as "cast" GString "expected a string, but got: %T" value ref n
         [SDefine [Some (num_var "target" n); Some (num_var "err" n)] (XCall f args);
          SIf (XEqual IsUnequal (vr "err" n) XNil) [report ref text about] [SAssign [tg] (vr "target" n)]]) (length H)
        (match o with Some _ => Done (x, es) | None => Done (x, gadd reft m es) end).
    Proof.
      intros Ev Hlib Hres Hargs Hab Hs Hu. eapply texts_work; [exact Ev|]. intros Gr K1 Hcell Hc Hcast.
      assert (Hsecond : forall p q : val, nth_error (m_cast s ++ [p; q]) (S (length (m_cast s))) = Some q).
      { intros p q. rewrite nth_error_app2 by lia. replace (S (length (m_cast s)) - length (m_cast s)) with 1 by lia. reflexivity. }
      assert (Hfirst : forall p q : val, nth_error (m_cast s ++ [p; q]) (length (m_cast s)) = Some p).
      { intros p q. rewrite nth_error_app2 by lia. now rewrite Nat.sub_diag. }
      assert (Gr2 : grows n r ((num_var "err" n, S (length (m_cast s))) :: (num_var "target" n, length (m_cast s)) :: r_cast)) by (apply grows_cons; [stem|lia|]; apply grows_cons; [stem|lia|exact Gr]).
      destruct o as [u|]; subst res.
      - eapply comes_define2; [stem|stem|lia|lia|rule values_call; [rule args_all; exact Hargs|rule call_library; [exact Hlib|reflexivity]]|].
        eapply comes_if; [rule eval_equal; [rule eval_var; [apply cell_here|apply Hsecond]|rule eval_nil|reflexivity]|]. cbn [negb].
        eapply cast_assign; [exact Gr2|apply (keeps_trans _ _ (m_cast s)); [exact K1|apply keeps_two]|rule eval_var; [cells|apply Hfirst]|]. now apply (Hu u).
      - eapply comes_define2; [stem|stem|lia|lia|rule values_call; [rule args_all; exact Hargs|rule call_library; [exact Hlib|reflexivity]]|].
        eapply comes_if; [rule eval_equal; [rule eval_var; [apply cell_here|apply Hsecond]|rule eval_nil|reflexivity]|]. cbn [negb].
        eapply cast_report; [exact Gr2|apply (keeps_trans _ _ (m_cast s)); [exact K1|apply keeps_two]|exact Hab|exact Hs].
    Qed.

    Lemma time_runs t f : t = TDate f \/ t = TTime f \/ t = TDatetime f -> comes n r H a v0 put t (fst (parse_code G registry t value tg ref n)) (length H) (go_date_time X f v reft es).
    Proof.
      intros Ht. assert (Hheld : forall H' lo x, held H' lo t (RTime x) (GTime x)) by (intros H' lo x; destruct Ht as [->|[->| ->]]; constructor).
      replace (fst (parse_code G registry t value tg ref n)) with (fst (parse_code G registry (TDate f) value tg ref n)) by (now destruct Ht as [->|[->| ->]]). clear Ht.
      cbn [parse_code fst]. destruct text_or_not as [[s Ev]|Hno].
      2: { replace (go_date_time X f v reft es) with (@Done (gval * gerrs) (GZero, gadd reft (GExpectedType (s_ "a string") (gtype_of v)) es)); [now apply texts_fail|].
           destruct v; try reflexivity. now destruct (Hno s). }
      rewrite Ev. cbn [go_date_time]. unfold greport, gret.
      assert (Hcell : cell_of r_cast (num_var "cast" n) = Some (length H)) by (unfold r_cast; cells).
      assert (Hc : nth_error (m_cast s) (length H) = Some (RStr s)) by (unfold m_cast; rewrite nth_error_app2 by lia; now rewrite Nat.sub_diag).
      assert (Hshow : forall bad why H', keeps [] (m_cast s ++ [bad; RError why]) H' ->
        Forall2 (fun e v => evals ((num_var "err" n, S (length (m_cast s))) :: (num_var "target" n, length (m_cast s)) :: r_cast) H' e (Out (v, H'))) [vr "cast" n] [RStr s]).
      { intros bad why H' K. constructor; [|constructor]. rule eval_var; [unfold r_cast; cells|]. apply K; [|intros []]. apply nth_app_l. exact Hc. }
      assert (HE : forall o : option (g_time X), (forall u, o = Some u -> exists u', o = Some u') ->
         g_time_parse X (layout f) s = o -> comes n r H a v0 put t (parse_as "cast" GString "expected a string, but got: %T" value ref n
             [SDefine [Some (num_var "target" n); Some (num_var "err" n)] (M_GoTyping.call "time.Parse" [XText (layout f); vr "cast" n]);
              SIf (XEqual IsUnequal (vr "err" n) XNil) [report ref (s_ "expected layout " ++ layout f ++ s_ ", got: %s") [vr "cast" n]] [SAssign [tg] (vr "target" n)]]) (length H)
           (match o with Some u => Done (GTime u, es) | None => Done (GZero, gadd reft (GExpectedLayout (layout f) s) es) end)).
      { intros o _ Eo. unfold M_GoTyping.call.
        pose proof (library_runs t s (s_ "time.Parse") [XText (layout f); vr "cast" n] [RStr (layout f); RStr s]
          (match g_time_parse X (layout f) s with Some t => [RTime t; RNil] | None => [RZero; RError (s_ "time.Parse")] end)
          (s_ "expected layout " ++ layout f ++ s_ ", got: %s") [vr "cast" n] [RStr s] (GExpectedLayout (layout f) s)
          (match o with Some u => GTime u | None => GZero end) (match o with Some u => Some (RTime u) | None => None end) RZero (s_ "time.Parse") Ev) as HP.
        specialize (HP eq_refl). rewrite Eo in HP. destruct o as [u|]; (apply HP; clear HP;
          [reflexivity|constructor; [rule eval_text|constructor; [exact (cast_var _ _ _ _ _ Hcell Hc)|constructor]]|exact (Hshow _ _)|now apply says_layout|]).
        - intros u' [= <-] H' lo. apply Hheld.
        - discriminate. }
      specialize (HE (g_time_parse X (layout f) s) (fun u e => ex_intro _ u e) eq_refl). destruct (g_time_parse X (layout f) s); exact HE.
    Qed.
    Lemma reported_err s bad why H' : keeps [] (m_cast s ++ [bad; RError why]) H' ->
      Forall2 (fun e v => evals ((num_var "err" n, S (length (m_cast s))) :: (num_var "target" n, length (m_cast s)) :: r_cast) H' e (Out (v, H')))
        [vr "cast" n; meth (vr "err" n) "Error" []] [RStr s; RStr why].
    Proof.
      intros K. constructor; [|constructor; [|constructor]].
      - rule eval_var; [unfold r_cast; cells|]. apply K; [|intros []]. apply nth_app_l. unfold m_cast. rewrite nth_error_app2 by lia. now rewrite Nat.sub_diag.
      - assert (E : nth_error H' (S (length (m_cast s))) = Some (RError why)).
        { apply K; [|intros []]. rewrite nth_error_app2 by lia. replace (S (length (m_cast s)) - length (m_cast s)) with 1 by lia. reflexivity. }
        unfold meth. rule eval_method; [rule eval_var; [apply cell_here|exact E]|rule args_nil|reflexivity].
    Qed.
    Lemma cast_read s : evals r_cast (m_cast s) (vr "cast" n) (Out (RStr s, m_cast s)).
    Proof. rule eval_var; [unfold r_cast; cells|]. unfold m_cast. rewrite nth_error_app2 by lia. now rewrite Nat.sub_diag. Qed.
    Lemma zone_runs : comes n r H a v0 put TTimeZone (fst (parse_code G registry TTimeZone value tg ref n)) (length H) (go_time_zone X v reft es).
    Proof.
      cbn [parse_code fst]. destruct text_or_not as [[s Ev]|Hno].
      2: { replace (go_time_zone X v reft es) with (@Done (gval * gerrs) (GNil, gadd reft (GExpectedType (s_ "a string") (gtype_of v)) es)); [now apply texts_fail|].
           destruct v; try reflexivity. now destruct (Hno s). }
      rewrite Ev. cbn [go_time_zone]. unfold greport, gret, M_GoTyping.call.
      pose proof (fun x o => library_runs TTimeZone s (s_ "time.LoadLocation") [vr "cast" n] [RStr s]
          (match g_load X s with Some z => [RZone z; RNil] | None => [RNil; RError (s_ "time.LoadLocation")] end)
          (s_ "failed to load location from %#v: %s") [vr "cast" n; meth (vr "err" n) "Error" []] [RStr s; RStr (s_ "time.LoadLocation")] (GLocation s)
          x o RNil (s_ "time.LoadLocation") Ev eq_refl) as HP.
      destruct (g_load X s) as [z|].
      - apply (HP (GZone z) (Some (RZone z))); [reflexivity|constructor; [apply cast_read|constructor]|apply reported_err|eapply says_location; reflexivity|].
        intros u' [= <-] H' lo. constructor.
      - apply (HP GNil None); [reflexivity|constructor; [apply cast_read|constructor]|apply reported_err|eapply says_location; reflexivity|discriminate].
    Qed.
    Lemma duration_runs : comes n r H a v0 put TDuration (fst (parse_code G registry TDuration value tg ref n)) (length H) (go_duration X v reft es).
    Proof.
      cbn [parse_code fst]. destruct text_or_not as [[s Ev]|Hno].
      2: { replace (go_duration X v reft es) with (@Done (gval * gerrs) (GZero, gadd reft (GExpectedType (s_ "a string") (gtype_of v)) es)); [now apply texts_fail|].
           destruct v; try reflexivity. now destruct (Hno s). }
      rewrite Ev. cbn [go_duration]. unfold greport, gret, M_GoTyping.call.
      pose proof (fun x o => library_runs TDuration s (s_ "durationFromString") [vr "cast" n] [RStr s]
          (match go_dur_from s with Some d => [RDuration d; RNil] | None => [RDuration 0; RError (s_ "duration")] end)
          (s_ "failed to parse duration from %#v: %s") [vr "cast" n; meth (vr "err" n) "Error" []] [RStr s; RStr (s_ "duration")] (GDurationMsg s)
          x o (RDuration 0) (s_ "duration") Ev eq_refl) as HP.
      destruct (go_dur_from s) as [z|].
      - apply (HP (GDuration z) (Some (RDuration z))); [reflexivity|constructor; [apply cast_read|constructor]|apply reported_err|eapply says_duration; reflexivity|].
        intros u' [= <-] H' lo. constructor.
      - apply (HP GZero None); [reflexivity|constructor; [apply cast_read|constructor]|apply reported_err|eapply says_duration; reflexivity|discriminate].
    Qed.
    Lemma ref_runs m : keeps M H0 H -> usable avail (TClass m) -> comes n r H a v0 put (TClass m) (fst (parse_code G registry (TClass m) value tg ref n)) (length H) (go_reference X G R m v reft es).
    Proof.
      intros KM (c & Ec & Hav). cbn [parse_code fst]. rewrite Ec. destruct text_or_not as [[s Ev]|Hno].
      2: { replace (go_reference X G R m v reft es) with (@Done (gval * gerrs) (GNil, gadd reft (GExpectedType (s_ "a string") (gtype_of v)) es)); [now apply texts_fail|].
           destruct v; try reflexivity. now destruct (Hno s). }
      rewrite Ev. cbn [go_reference]. rewrite Ec. change (match lookup (field (c_plural c)) R with Some r0 => r0 | None => [] end) with (registry_of c). unfold greport, gret.
      eapply texts_work; [exact Ev|]. intros Gr K1 Hcell Hc Hs.
      destruct (here_ctx r_cast (m_cast s) Gr K1) as (_ & _ & D3 & _).
      assert (Hentry : entry X (mv c) (RStr s) (m_cast s) = Out (match lookup s (registry_of c) with Some o => Some (RPointer (inst o, [])) | None => None end, m_cast s)).
      { destruct (Hregistries m c Ec) as [[E1 E2]|(b & E1 & Hb & E2)]; rewrite E1; [now rewrite E2|].
        rewrite (entry_map X (m_cast s) b (entries_of_registry (registry_of c))).
        - f_equal. f_equal. unfold entries_of_registry. clear. induction (registry_of c) as [|[k o] l IH]; [reflexivity|]. cbn. destruct (str_eqb s k); [reflexivity|exact IH].
        - apply K1; [|intros []]. now apply KM. }
      assert (Hin : forall q, lookup s (registry_of c) = Some q -> known q).
      { intros q E. exists c, s. split; [|exact E]. unfold find_class in Ec. apply find_some in Ec. apply Ec. }
      assert (Hvals : ev (fun k => values k r_cast (XIndex (registry c) (vr "cast" n)) 2) (m_cast s)
        (Out (match lookup s (registry_of c) with Some o => [RPointer (inst o, []); RBool true] | None => [RNil; RBool false] end, m_cast s))).
      { pose proof (values_index X printed go_dur_from duration_to structs functions globals _ _ _ _ _ _ _ _ _ (D3 c Hav) Hs Hentry) as HV. destruct (lookup s (registry_of c)); exact HV. }
      assert (Hsecond : forall p q : val, nth_error (m_cast s ++ [p; q]) (S (length (m_cast s))) = Some q).
      { intros p q. rewrite nth_error_app2 by lia. replace (S (length (m_cast s)) - length (m_cast s)) with 1 by lia. reflexivity. }
      assert (Hfirst : forall p q : val, nth_error (m_cast s ++ [p; q]) (length (m_cast s)) = Some p).
      { intros p q. rewrite nth_error_app2 by lia. now rewrite Nat.sub_diag. }
      assert (Gr2 : grows n r ((num_var "ok" n, S (length (m_cast s))) :: (num_var "target" n, length (m_cast s)) :: r_cast)) by (apply grows_cons; [stem|lia|]; apply grows_cons; [stem|lia|exact Gr]).
      assert (K2 : forall p q : val, keeps [] H (m_cast s ++ [p; q])) by (intros p q; apply (keeps_trans _ _ (m_cast s)); [exact K1|apply keeps_two]).
      destruct (lookup s (registry_of c)) as [q|] eqn:El.
      - eapply comes_define2; [stem|stem|lia|lia|exact Hvals|]. eapply comes_if; [rule eval_not; rule eval_var; [apply cell_here|apply Hsecond]|]. cbn [negb].
        eapply cast_assign; [exact Gr2|apply K2|rule eval_var; [cells|apply Hfirst]|]. constructor. now apply Hin.
      - eapply comes_define2; [stem|stem|lia|lia|exact Hvals|]. eapply comes_if; [rule eval_not; rule eval_var; [apply cell_here|apply Hsecond]|]. cbn [negb].
        eapply cast_report with (vs := [RStr s]); [exact Gr2|apply K2| |now apply says_reference].
        intros H' K'. constructor; [|constructor]. rewrite Ev in Hj. cbn in Hj. rewrite <- Hj.
        destruct (HL _ H' Gr2) as (D1 & _); [|exact D1]. apply keeps_nil. apply (keeps_trans _ _ _ _ (K2 _ _) K').
    Qed.
  End Atoms.

  (** * Arrays and maps *)
  Lemma join_more sep parts p : parts <> [] -> join sep (parts ++ [p]) = join sep parts ++ sep ++ p.
  Proof.
    induction parts as [|x parts IH]; intros Hp; [contradiction|]. destruct parts as [|y parts]; [reflexivity|]. cbn [app join] in *. rewrite IH by discriminate.
    now rewrite <- !app_assoc.
  Qed.
  Lemma dec_Z_nat i : dec_Z (Z.of_nat i) = dec_nat i.
  Proof. unfold dec_nat. destruct i; reflexivity. Qed.
  Lemma item_place r H m k a i l v : evals r H m (Out (RSlice a, H)) -> evals r H k (Out (RInt (Z.of_nat i), H)) -> nth_error H a = Some (RItems l) -> nth_error l i = Some v ->
    places r H (XIndex m k) (Out ((a, [AtIndex i]), H)).
  Proof.
    intros E1 E2 E3 Eu. eapply ev_step; [intros q; cbn; reflexivity|]. eapply ev_bind; [exact E1|]. cbn beta iota. eapply ev_bind; [exact E2|]. cbn beta iota. apply ev_const.
    unfold andthen. rewrite (index_items X _ _ _ _ _ E3 Eu). unfold done. now rewrite Nat2Z.id.
  Qed.
  Lemma gkeeps_in_turn j t ref : gkeeps (go_value X G in_turn R j t ref).
  Proof. apply gkeeps_value. intros A k s l. unfold in_turn. apply Permutation.Permutation_refl. Qed.
  Lemma grown_to_empty es es' : ggrown es es' -> go_empty es' = true -> go_empty es = true.
  Proof. intros Hg He. apply empty_iff in He. rewrite He in Hg. apply ggrown_empty in Hg. rewrite Hg. reflexivity. Qed.
  Lemma full_not_empty (es : gerrs) : go_full es = true -> go_empty es = true -> False.
  Proof. intros Hf He. apply empty_iff in He. rewrite He in Hf. now rewrite empty_not_full in Hf. Qed.
  Lemma run_full_no r H es code : evals r H (ow "errors") (Out (RPointer (ec, []), H)) -> errors_at H es -> go_full es = false ->
    forall rest o, runs r H rest o -> runs r H (when_full code :: rest) o.
  Proof.
    intros Ee (ers & E & Hr) Hf rest o Ho. unfold when_full. rule run_if; [rule eval_full; [exact Ee|exact E]| |exact Ho].
    rewrite (rendered_full _ _ Hr), Hf. rule run_nil.
  Qed.

  Section Loop.
    Variable registry : cls -> gexpr.
    Variable avail : cls -> Prop.
    Variable ref : list gexpr.
    Variable parts : list str.
    Hypothesis Hparts : parts <> [].
    Notation reft := (join (s_ "/") parts).
    Variable t : ty.
    Hypothesis Ht : usable avail t.
    Variable z : val.
    Hypothesis Hz : shaped t z.
    Variable n : nat.
    (** The scope and the memory before the loop; the cells of the variables [cast] and [target], of the items and of the target *)
    Variable r : scope.
    Variable Hb : mem.
    Variable ca tca ba ta : nat.
    Hypothesis Kb : keeps M H0 Hb.
    Hypothesis Hta : length H0 <= ta.
    Hypothesis Hca : cell_of r (num_var "cast" n) = Some ca.
    Hypothesis Htca : cell_of r (num_var "target" n) = Some tca.
    Hypothesis Hcells : ca <> ta /\ ca <> ec /\ tca <> ta /\ tca <> ec /\ ba <> ta /\ ba <> ec /\ ta <> ec.
    Hypothesis Hctx : forall r' H', grows n r r' -> keeps [ta; ec] Hb H' -> evals r' H' (ow "errors") (Out (RPointer (ec, []), H')) /\
      (forall c, avail c -> evals r' H' (registry c) (Out (mv c, H'))) /\ Forall2 (fun e p => evals r' H' e (Out (RStr p, H'))) ref parts.
    Lemma loop_cell H a v : keeps [ta; ec] Hb H -> nth_error Hb a = Some v -> a <> ta -> a <> ec -> nth_error H a = Some v.
    Proof. intros K E H1 H2. apply K; [exact E|]. intros [->|[->|[]]]; congruence. Qed.
    Lemma loop_M H : keeps [ta; ec] Hb H -> keeps M H0 H.
    Proof. intros K. apply (keeps_M Hb H [ta; ec] Kb K). intros a [<-|[<-|[]]]; [now right|now left]. Qed.

    Section Array.
      Variable item : list gstmt.
      Variable n' : nat.
      Hypothesis Hitem : parse_code G registry t (XIndex (vr "cast" n) (vr "i" n)) (XIndex (vr "target" n) (vr "i" n)) (ref ++ [M_GoTyping.call "strconv.Itoa" [vr "i" n]]) (S n) = (item, n').
      Variable wsall : list val.
      Hypothesis Hcast : nth_error Hb ca = Some (RSlice ba).
      Hypothesis Hba : nth_error Hb ba = Some (RItems wsall).
      Hypothesis Htarget : nth_error Hb tca = Some (RSlice ta).
      Notation loop l := (fun k => ranging k r (num_var "i" n) None (item ++ [when_full SBreak]) l).

      Lemma items_run : forall js ws i H es cur, Forall value_runs js -> Forall2 json js ws -> skipn i wsall = ws -> i + length js = length wsall ->
        keeps [ta; ec] Hb H -> errors_at H es -> nth_error H ta = Some (RItems cur) -> length cur = length wsall -> (forall k, i <= k < length cur -> nth_error cur k = Some z) ->
        match go_items X (map (go_value X G in_turn R) js) t reft i es with
        | Panic _ => ev (loop (combine (map (fun i => RInt (Z.of_nat i)) (List.seq i (length js))) ws)) H Panicked
        | Done (xs, es') => exists H' cur', ev (loop (combine (map (fun i => RInt (Z.of_nat i)) (List.seq i (length js))) ws)) H (Out (Next, H')) /\
            keeps [ta; ec] H H' /\ errors_at H' es' /\ nth_error H' ta = Some (RItems cur') /\
            (go_empty es' = true -> exists us, cur' = firstn i cur ++ us /\ Forall2 (held H' (length H) t) us xs)
        end.
      Proof.
        induction js as [|j js IH]; intros ws i H es cur HIH HF Hws Hi K He Ecur Hlen Hrest.
        - inversion HF; subst. cbn [map go_items length List.seq combine]. unfold gret. exists H, cur. split; [rule range_end|]. split; [apply keeps_refl|]. split; [exact He|]. split; [exact Ecur|].
          intros _. exists []. split; [|constructor]. rewrite app_nil_r. cbn in Hi. rewrite firstn_all2; [reflexivity|lia].
        - inversion HF as [|? w ? ws' Hw HF' E1 E2]; subst. inversion HIH as [|? ? IHj HIH']; subst.
          assert (Ew : nth_error wsall i = Some w).
          { clear -E2. revert i E2. induction wsall as [|x l IHl]; intros [|i] E2; cbn in *; try discriminate; [congruence|now apply IHl]. }
          assert (Ews : skipn (S i) wsall = ws').
          { clear -E2. revert i E2. induction wsall as [|x l IHl]; intros [|i] E2; cbn in *; try discriminate; [congruence|now apply IHl]. }
          cbn [map go_items length List.seq combine]. cbn [length] in Hi.
          assert (Hil : i < length cur) by lia. assert (Lta := nth_some_lt _ _ _ Ecur).
          set (ri := (num_var "i" n, length H) :: r). set (Hi1 := H ++ [RInt (Z.of_nat i)]).
          assert (Ki : forall W, keeps W H Hi1) by (intros W; apply keeps_app).
          assert (KHi : keeps [ta; ec] Hb Hi1) by (apply (keeps_trans _ _ H); [exact K|apply Ki]).
          assert (Ecur1 : nth_error Hi1 ta = Some (RItems cur)) by (now apply nth_app_l).
          assert (Hreach : forall r' H', grows (S n) ri r' -> keeps [ec] Hi1 H' -> grows n r r' /\ keeps [ta; ec] Hb H' /\ cell_of r' (num_var "cast" n) = Some ca /\
                     cell_of r' (num_var "target" n) = Some tca /\ cell_of r' (num_var "i" n) = Some (length H) /\ nth_error H' (length H) = Some (RInt (Z.of_nat i)) /\ nth_error H' ta = Some (RItems cur)).
          { intros r' H' Gr' K'. assert (Lec : ec <> length H) by (destruct He as (? & E & _); apply nth_some_lt in E; lia).
            split; [apply (grows_trans n (S n) r ri); [lia|unfold ri; grow|exact Gr']|].
            split; [apply (keeps_trans _ _ Hi1); [exact KHi|apply (keeps_more [ec]); [intros q [<-|[]]; right; now left|exact K']]|].
            split; [apply (grows_cell (S n) ri); [apply stable_num; [stem|lia]|unfold ri; cells|exact Gr']|].
            split; [apply (grows_cell (S n) ri); [apply stable_num; [stem|lia]|unfold ri; cells|exact Gr']|].
            split; [apply (grows_cell (S n) ri); [apply stable_num; [stem|lia]|unfold ri; cells|exact Gr']|].
            split; [apply K'; [apply nth_app_new|intros [->|[]]; congruence]|]. apply K'; [exact Ecur1|intros [->|[]]; tauto]. }
          destruct Hcells as (N1 & N2 & N3 & N4 & N5 & N6 & N7).
          assert (HC := IHj t w registry avail (XIndex (vr "cast" n) (vr "i" n)) (XIndex (vr "target" n) (vr "i" n)) (ref ++ [M_GoTyping.call "strconv.Itoa" [vr "i" n]]) (parts ++ [dec_nat i])
                          (S n) item n' ri Hi1 ta (RItems cur) (fun u => RItems (replace i u cur)) es (gslash reft (dec_nat i)) Hw Ht Hitem (loop_M _ KHi) (or_intror Hta) N7
                          ltac:(apply (errors_keeps [] H); [apply Ki|intros []|exact He]) Ecur1 ltac:(now destruct parts)
                          ltac:(unfold gslash; now apply join_more)).
          assert (Hlast : lasting (S n) ri Hi1 (context registry avail (XIndex (vr "cast" n) (vr "i" n)) w (XIndex (vr "target" n) (vr "i" n)) ta (fun u => RItems (replace i u cur))
                            (ref ++ [M_GoTyping.call "strconv.Itoa" [vr "i" n]]) (parts ++ [dec_nat i]))).
          { intros r' H' Gr' K'. destruct (Hreach r' H' Gr' K') as (G1 & G2 & G3 & G4 & G5 & G6 & G7). destruct (Hctx r' H' G1 G2) as (C1 & C2 & C3).
            assert (Ei : evals r' H' (vr "i" n) (Out (RInt (Z.of_nat i), H'))) by (rule eval_var; [exact G5|exact G6]).
            split; [|split; [exact C1|split; [exact C2|split]]].
            - rule eval_index; [rule eval_var; [exact G3|apply (loop_cell _ _ _ G2 Hcast N1 N2)]|exact Ei|]. apply (index_items X _ _ wsall); [apply (loop_cell _ _ _ G2 Hba N5 N6)|exact Ew].
            - apply Forall2_app; [exact C3|]. constructor; [|constructor]. unfold M_GoTyping.call. rule eval_call; [rule args_cons; [exact Ei|rule args_nil]|].
              rule call_library; [reflexivity|]. now rewrite <- dec_Z_nat.
            - intros u. rule assign_item; [rule eval_var; [exact G4|apply (loop_cell _ _ _ G2 Htarget N3 N4)]|exact Ei|exact G7|exact Hil]. }
          specialize (HC Hlast).
          assert (Hplace : target_place (XIndex (vr "target" n) (vr "i" n)) ta (RItems cur) (fun u => RItems (replace i u cur)) t (S n) ri Hi1).
          { intros m Em. exists [AtIndex i], z. split; [|split; [|split]].
            - intros r' H' Gr' K'. destruct (Hreach r' H' Gr' K') as (G1 & G2 & G3 & G4 & G5 & G6 & G7).
              eapply item_place; [rule eval_var; [exact G4|apply (loop_cell _ _ _ G2 Htarget N3 N4)]|rule eval_var; [exact G5|exact G6]|exact G7|]. apply Hrest. lia.
            - cbn [part]. rewrite (Hrest i) by lia. reflexivity.
            - exact Hz.
            - intros u. cbn [with_part]. rewrite (Hrest i) by lia. reflexivity. }
          specialize (HC Hplace). unfold comes in HC. unfold gbind at 1.
          destruct (go_value X G in_turn R j t (gslash reft (dec_nat i)) es) as [[x es1]|p].
          2: { rule range_key_panics. apply HC. }
          destruct HC as (r1 & H1 & c1 & Gr1 & K1 & He1 & Ec1 & Hshape & Hheld & Hrun).
          assert (KH1 : keeps [ta; ec] H H1) by (apply (keeps_trans _ _ Hi1); [apply Ki|exact K1]).
          assert (KH1b : keeps [ta; ec] Hb H1) by (apply (keeps_trans _ _ H); assumption).
          destruct (Hctx r1 H1 ltac:(apply (grows_trans n (S n) r ri); [lia|unfold ri; grow|exact Gr1]) KH1b) as (C1 & _).
          assert (Hc1 : exists cur1, c1 = RItems cur1 /\ length cur1 = length wsall /\ firstn i cur1 = firstn i cur /\ forall k, S i <= k < length cur1 -> nth_error cur1 k = Some z).
          { destruct Hshape as [->|[u ->]].
            - exists cur. repeat split; try assumption. intros k Hk. apply Hrest. lia.
            - exists (replace i u cur). split; [reflexivity|]. rewrite length_replace. split; [exact Hlen|]. split; [|intros k Hk; rewrite nth_replace_other by lia; apply Hrest; lia].
              clear. revert i. induction cur as [|y cur IHc]; intros [|i]; cbn; try reflexivity. now rewrite IHc. }
          destruct Hc1 as (cur1 & -> & Hlen1 & Hfirst1 & Hrest1).
          destruct (go_full es1) eqn:Hfull.
          + exists H1, cur1. split; [|split; [exact KH1|split; [exact He1|split; [exact Ec1|]]]].
            * rule range_key_break. apply Hrun. unfold when_full. destruct He1 as (ers & E & Hr). rule run_if_break; [rule eval_full; [exact C1|exact E]|].
              rewrite (rendered_full _ _ Hr), Hfull. rule run_break.
            * intros He2. exfalso. now apply (full_not_empty es1).
          + assert (IHn := IH ws' (S i) H1 es1 cur1 HIH' HF' Ews ltac:(lia) KH1b He1 Ec1 Hlen1 Hrest1).
            assert (Hstep : forall o, ev (loop (combine (map (fun i => RInt (Z.of_nat i)) (List.seq (S i) (length js))) ws')) H1 o ->
              ev (loop ((RInt (Z.of_nat i), w) :: combine (map (fun i => RInt (Z.of_nat i)) (List.seq (S i) (length js))) ws')) H o).
            { intros o Ho. rule range_key_step; [|exact Ho]. apply Hrun. eapply run_full_no; [exact C1|exact He1|exact Hfull|]. rule run_nil. }
            unfold gbind. assert (Hgk := gkeeps_items X (map (go_value X G in_turn R) js) t reft ltac:(apply Forall_map; apply Forall_forall; intros q _ t0 r0; apply gkeeps_in_turn) (S i) es1).
            destruct (go_items X (map (go_value X G in_turn R) js) t reft (S i) es1) as [[xs es2]|p]; [|now apply Hstep].
            specialize (Hgk xs es2 eq_refl). unfold gret. destruct IHn as (H2 & cur2 & R2 & K2 & He2 & Ec2 & Hh2). exists H2, cur2. split; [now apply Hstep|].
            split; [now apply (keeps_trans _ _ H1)|]. split; [exact He2|]. split; [exact Ec2|]. intros Hem.
            destruct (Hh2 Hem) as (us & -> & HF2). destruct (Hheld (grown_to_empty _ _ Hgk Hem)) as (u & Eu & Hu). injection Eu as ->.
            exists (u :: us). split.
            * assert (E : firstn (S i) (replace i u cur) = firstn i cur ++ [u]).
              { clear -Hil. revert i Hil. induction cur as [|y cur IHc]; intros [|i] Hil; cbn in *; try lia; [reflexivity|]. f_equal. apply IHc. lia. }
              rewrite E, <- app_assoc. reflexivity.
            * assert (Lec : ec < length Hi1) by (destruct He as (? & E & _); apply nth_some_lt in E; unfold Hi1; rewrite app_length; lia).
              assert (Lta1 : ta < length Hi1) by (apply nth_some_lt in Ecur1; exact Ecur1).
              constructor; [apply (held_keeps [ta; ec] H1 _ (length Hi1)); [exact K2|intros q [<-|[<-|[]]]; lia|unfold Hi1; rewrite app_length; lia|exact Hu]|].
              eapply Forall2_impl; [|exact HF2]. intros p q Hpq. apply (held_keeps [] H2 _ (length H1)); [apply keeps_refl|intros ? []|destruct KH1; lia|exact Hpq].
      Qed.
    End Array.

    Section Map.
      Hypothesis Hzt : zero_is (go_ty t) z.
      Variable item : list gstmt.
      Variable n' : nat.
      Hypothesis Hitem : parse_code G registry t (XIndex (vr "cast" n) (vr "k" n)) (match t with TEmbed _ => vr "item" n | _ => XIndex (vr "target" n) (vr "k" n) end) (ref ++ [vr "k" n]) (S n) = (item, n').
      Variable wsall : list (str * val).
      Hypothesis Hcast : nth_error Hb ca = Some (RMap ba).
      Hypothesis Hba : nth_error Hb ba = Some (REntries wsall).
      Hypothesis Htarget : nth_error Hb tca = Some (RMap ta).
      Notation body := (match t with TEmbed _ => SVar (num_var "item" n) (go_ty t) :: item ++ [SAssign [XIndex (vr "target" n) (vr "k" n)] (vr "item" n)] | _ => item end).
      Notation loop l := (fun q => ranging q r (num_var "k" n) None (body ++ [when_full SBreak]) l).

      (** One entry *)
      Lemma entry_run j w k H es cur : value_runs j -> json j w -> lookup k wsall = Some w -> keeps [ta; ec] Hb H -> errors_at H es -> nth_error H ta = Some (REntries cur) ->
        match go_value X G in_turn R j t (gslash reft k) es with
        | Panic _ => forall rest, runs ((num_var "k" n, length H) :: r) (H ++ [RStr k]) (body ++ rest) Panicked
        | Done (x, es1) => exists r1 H1 cur1, grows n r r1 /\ keeps [ta; ec] H H1 /\ errors_at H1 es1 /\ nth_error H1 ta = Some (REntries cur1) /\
            (go_empty es1 = true -> exists u, cur1 = upsert k u cur /\ held H1 (length H) t u x) /\
            forall rest o, runs r1 H1 rest o -> runs ((num_var "k" n, length H) :: r) (H ++ [RStr k]) (body ++ rest) o
        end.
      Proof.
        intros IHj Hw Ew K He Ecur. assert (Lta := nth_some_lt _ _ _ Ecur). destruct Hcells as (N1 & N2 & N3 & N4 & N5 & N6 & N7).
        assert (Lec : ec < length H) by (destruct He as (? & E & _); now apply nth_some_lt in E).
        set (rk := (num_var "k" n, length H) :: r). set (Hk := H ++ [RStr k]).
        assert (Kk : forall W, keeps W H Hk) by (intros W; apply keeps_app).
        assert (KHk : keeps [ta; ec] Hb Hk) by (apply (keeps_trans _ _ H); [exact K|apply Kk]).
        assert (Ecur1 : nth_error Hk ta = Some (REntries cur)) by (now apply nth_app_l).
        assert (Hek : errors_at Hk es) by (apply (errors_keeps [] H); [apply Kk|intros []|exact He]).
        assert (Lk : length Hk = S (length H)) by (unfold Hk; rewrite app_length; cbn; lia).
        assert (Hreach : forall r2 H2, (grows (S n) rk r2 \/ exists b, grows (S n) ((num_var "item" n, b) :: rk) r2) -> keeps [ec; length Hk] Hk H2 ->
                   grows n r r2 /\ keeps [ta; ec] Hb H2 /\ cell_of r2 (num_var "cast" n) = Some ca /\
                   cell_of r2 (num_var "target" n) = Some tca /\ cell_of r2 (num_var "k" n) = Some (length H) /\ nth_error H2 (length H) = Some (RStr k) /\ nth_error H2 ta = Some (REntries cur)).
        { intros r2 H2 Gr' K'.
          assert (Gb : grows n r r2) by (destruct Gr' as [Gr'|[b Gr']]; [apply (grows_trans n (S n) r rk)|apply (grows_trans n (S n) r ((num_var "item" n, b) :: rk))]; try lia; try exact Gr'; unfold rk; grow).
          assert (Gc : forall x c, stable (S n) x -> x <> num_var "item" n -> cell_of rk x = Some c -> cell_of r2 x = Some c).
          { intros x c Hx Hxi Hc. destruct Gr' as [Gr'|[b Gr']]; [exact (grows_cell _ _ _ _ _ Hx Hc Gr')|]. apply (grows_cell (S n) ((num_var "item" n, b) :: rk)); [exact Hx| |exact Gr']. now rewrite cell_before. }
          split; [exact Gb|]. split; [apply (keeps_M' _ _ _ _ _ KHk K'); intros q [<-|[<-|[]]]; [left; right; now left|right; destruct KHk; lia]|].
          split; [apply Gc; [apply stable_num; [stem|lia]|differ|unfold rk; cells]|].
          split; [apply Gc; [apply stable_num; [stem|lia]|differ|unfold rk; cells]|].
          split; [apply Gc; [apply stable_num; [stem|lia]|differ|unfold rk; cells]|].
          split; [apply K'; [apply nth_app_new|intros [E|[E|[]]]; lia]|]. apply K'; [exact Ecur1|intros [E|[E|[]]]; [now apply N7|lia]]. }
        assert (Hval : forall r2 H2, (grows (S n) rk r2 \/ exists b, grows (S n) ((num_var "item" n, b) :: rk) r2) -> keeps [ec; length Hk] Hk H2 ->
                   evals r2 H2 (XIndex (vr "cast" n) (vr "k" n)) (Out (w, H2)) /\ evals r2 H2 (ow "errors") (Out (RPointer (ec, []), H2)) /\
                   (forall c, avail c -> evals r2 H2 (registry c) (Out (mv c, H2))) /\ Forall2 (fun e p => evals r2 H2 e (Out (RStr p, H2))) (ref ++ [vr "k" n]) (parts ++ [k]) /\
                   forall u, ev (fun q => assign q r2 (XIndex (vr "target" n) (vr "k" n)) u) H2 (Out (tt, replace ta (REntries (upsert k u cur)) H2))).
        { intros r2 H2 Gr' K'. destruct (Hreach r2 H2 Gr' K') as (G1 & G2 & G3 & G4 & G5 & G6 & G7). destruct (Hctx r2 H2 G1 G2) as (C1 & C2 & C3).
          assert (Ek : evals r2 H2 (vr "k" n) (Out (RStr k, H2))) by (rule eval_var; [exact G5|exact G6]).
          split; [|split; [exact C1|split; [exact C2|split]]].
          - rule eval_index; [rule eval_var; [exact G3|apply (loop_cell _ _ _ G2 Hcast N1 N2)]|exact Ek|]. unfold at_index, andthen.
            rewrite (entry_map X H2 ba wsall) by (apply (loop_cell _ _ _ G2 Hba N5 N6)). rewrite Ew. reflexivity.
          - apply Forall2_app; [exact C3|]. constructor; [exact Ek|constructor].
          - intros u. rule assign_map; [rule eval_var; [exact G4|apply (loop_cell _ _ _ G2 Htarget N3 N4)]|exact Ek|exact G7]. }
        assert (Hslash : join (s_ "/") (parts ++ [k]) = gslash reft k) by (unfold gslash; now apply join_more).
        assert (Hnp : parts ++ [k] <> []) by (now destruct parts).
        destruct (match t with TEmbed m => Some m | _ => None end) as [m|] eqn:Em.
        - assert (Et : t = TEmbed m) by (destruct t; congruence).
          assert (Eb : forall A (f : list gstmt) (g : list gstmt) (h : list gstmt -> A), h (match t with TEmbed _ => f | _ => g end) = h f) by (intros; now rewrite Et).
          set (rz := (num_var "item" n, length Hk) :: rk). set (Hz1 := Hk ++ [z]).
          assert (Ki : forall W, keeps W Hk Hz1) by (intros W; apply keeps_app).
          assert (HC := IHj t w registry avail (XIndex (vr "cast" n) (vr "k" n)) (vr "item" n) (ref ++ [vr "k" n]) (parts ++ [k]) (S n) item n' rz Hz1 (length Hk) z (fun u => u) es (gslash reft k) Hw Ht
                     ltac:(rewrite Et in Hitem |- *; exact Hitem) ltac:(apply (keeps_M Hk _ []); [now apply loop_M|apply Ki|intros ? []])
                     ltac:(right; destruct (loop_M _ KHk); lia) ltac:(lia) ltac:(apply (errors_keeps [] Hk); [apply Ki|intros []|exact Hek]) ltac:(apply nth_app_new) Hnp Hslash).
          assert (Hafter : forall r2 H2, grows (S n) rz r2 -> keeps [length Hk; ec] Hz1 H2 -> (exists b, grows (S n) ((num_var "item" n, b) :: rk) r2) /\ keeps [ec; length Hk] Hk H2 /\ cell_of r2 (num_var "item" n) = Some (length Hk)).
          { intros r2 H2 Gr' K'. split; [exists (length Hk); exact Gr'|]. split; [apply (keeps_trans _ _ Hz1); [apply Ki|]; revert K'; apply keeps_more; intros q [<-|[<-|[]]]; cbn; tauto|].
            apply (grows_cell (S n) rz); [apply stable_num; [stem|lia]|apply cell_here|exact Gr']. }
          assert (Hlast : lasting (S n) rz Hz1 (context registry avail (XIndex (vr "cast" n) (vr "k" n)) w (vr "item" n) (length Hk) (fun u => u) (ref ++ [vr "k" n]) (parts ++ [k]))).
          { intros r2 H2 Gr' K'. destruct (Hafter r2 H2 Gr' ltac:(revert K'; apply keeps_more; intros q [<-|[]]; right; now left)) as (A1 & A2 & A3).
            destruct (Hval r2 H2 (or_intror A1) A2) as (C1 & C2 & C3 & C4 & _). repeat (split; [assumption|]).
            intros u. rule assign_var; [exact A3|]. apply K'; [apply nth_app_new|intros [E|[]]; lia]. }
          specialize (HC Hlast).
          assert (Hplace : target_place (vr "item" n) (length Hk) z (fun u => u) t (S n) rz Hz1).
          { intros m' Em'. exists [], z. split; [|split; [reflexivity|split; [exact Hz|reflexivity]]]. intros r2 H2 Gr' K'. rule place_var.
            apply (grows_cell (S n) rz); [apply stable_num; [stem|lia]|apply cell_here|exact Gr']. }
          specialize (HC Hplace). unfold comes in HC.
          destruct (go_value X G in_turn R j t (gslash reft k) es) as [[x es1]|p].
          2: { intros rest. rewrite Et. cbn [app]. rule run_var; [rewrite Et in Hzt; exact Hzt|]. rewrite <- app_assoc. apply HC. }
          destruct HC as (r1 & H1 & c1 & Gr1 & K1 & He1 & Ec1 & _ & Hheld & Hrun).
          destruct (Hafter r1 H1 Gr1 K1) as (A1 & A2 & A3). destruct (Hval r1 H1 (or_intror A1) A2) as (_ & _ & _ & _ & C5). destruct (Hreach r1 H1 (or_intror A1) A2) as (G1 & G2 & _ & _ & _ & _ & G7).
          exists r1, (replace ta (REntries (upsert k c1 cur)) H1), (upsert k c1 cur).
          assert (KH1 : keeps [ta; ec] H H1).
          { apply (keeps_M' _ _ _ _ _ (Kk [ta; ec]) A2). intros q [<-|[<-|[]]]; [left; right; now left|right; lia]. }
          assert (Kt : keeps [ta] H1 (replace ta (REntries (upsert k c1 cur)) H1)) by (apply keeps_replace; [left; now left|apply keeps_refl]).
          split; [exact G1|]. split; [apply keeps_replace; [left; now left|exact KH1]|].
          split; [apply (errors_keeps [ta] H1); [exact Kt|intros [E|[]]; now apply N7|exact He1]|].
          split; [apply nth_replace_same; destruct KH1; lia|]. split.
          + intros Hem. destruct (Hheld Hem) as (u & -> & Hu). exists u. split; [reflexivity|]. apply (held_keeps [ta] H1 _ (length Hz1)); [exact Kt|intros q [<-|[]]| |exact Hu];
            unfold Hz1; rewrite app_length; lia.
          + intros rest o Ho. rewrite Et. cbn [app]. rule run_var; [rewrite Et in Hzt; exact Hzt|]. rewrite <- app_assoc. apply Hrun. cbn [app].
            rule run_assign; [rule eval_var; [exact A3|exact Ec1]|apply C5|exact Ho].
        - assert (Eb : match t with TEmbed _ => SVar (num_var "item" n) (go_ty t) :: item ++ [SAssign [XIndex (vr "target" n) (vr "k" n)] (vr "item" n)] | _ => item end = item) by (destruct t; congruence).
          rewrite Eb.
          assert (HC := IHj t w registry avail (XIndex (vr "cast" n) (vr "k" n)) (XIndex (vr "target" n) (vr "k" n)) (ref ++ [vr "k" n]) (parts ++ [k]) (S n) item n' rk Hk ta (REntries cur)
                     (fun u => REntries (upsert k u cur)) es (gslash reft k) Hw Ht
                     ltac:(destruct t; try discriminate; exact Hitem) (loop_M _ KHk) (or_intror Hta) N7 Hek Ecur1 Hnp Hslash).
          assert (Hlast : lasting (S n) rk Hk (context registry avail (XIndex (vr "cast" n) (vr "k" n)) w (XIndex (vr "target" n) (vr "k" n)) ta (fun u => REntries (upsert k u cur)) (ref ++ [vr "k" n]) (parts ++ [k]))).
          { intros r2 H2 Gr' K'. apply (Hval r2 H2 (or_introl Gr')). revert K'. apply keeps_more. intros q [<-|[]]. now left. }
          specialize (HC Hlast ltac:(intros m' Em'; rewrite Em' in Em; discriminate)). unfold comes in HC.
          destruct (go_value X G in_turn R j t (gslash reft k) es) as [[x es1]|p]; [|exact HC].
          destruct HC as (r1 & H1 & c1 & Gr1 & K1 & He1 & Ec1 & Hshape & Hheld & Hrun).
          assert (Hc1 : exists cur1, c1 = REntries cur1) by (destruct Hshape as [->|[u ->]]; eexists; reflexivity). destruct Hc1 as [cur1 ->].
          exists r1, H1, cur1. split; [apply (grows_trans n (S n) r rk); [lia|unfold rk; grow|exact Gr1]|]. split; [apply (keeps_trans _ _ Hk); [apply Kk|exact K1]|].
          split; [exact He1|]. split; [exact Ec1|]. split; [|exact Hrun].
          intros Hem. destruct (Hheld Hem) as (u & Eu & Hu). injection Eu as ->. exists u. split; [reflexivity|]. apply (held_keeps [] H1 _ (length Hk)); [apply keeps_refl|intros ? []|lia|exact Hu].
      Qed.

      Lemma entries_run lo : ta < lo -> ec < lo -> forall js ws H es cur d, Forall (fun kj => value_runs (snd kj)) js -> entries_in H0 M js ws -> (forall k w, In (k, w) ws -> lookup k wsall = Some w) ->
        keeps [ta; ec] Hb H -> lo <= length H -> errors_at H es -> nth_error H ta = Some (REntries cur) ->
        (go_empty es = true -> NoDup (keys d) /\ Forall2 (fun kw kv => fst kw = fst kv /\ held H lo t (snd kw) (snd kv)) cur d) ->
        match go_entries X (map (fun kv => (fst kv, go_value X G in_turn R (snd kv))) js) t reft d es with
        | Panic _ => ev (loop (map (fun kv => (RStr (fst kv), snd kv)) ws)) H Panicked
        | Done (d', es') => exists H' cur', ev (loop (map (fun kv => (RStr (fst kv), snd kv)) ws)) H (Out (Next, H')) /\
            keeps [ta; ec] H H' /\ errors_at H' es' /\ nth_error H' ta = Some (REntries cur') /\
            (go_empty es' = true -> NoDup (keys d') /\ Forall2 (fun kw kv => fst kw = fst kv /\ held H' lo t (snd kw) (snd kv)) cur' d')
        end.
      Proof.
        intros Lta Lec. induction js as [|[k j] js IH]; intros ws H es cur d HIH HF Hin K Hlo He Ecur Hd.
        - inversion HF; subst. cbn [map go_entries]. unfold gret. exists H, cur. split; [rule range_end|]. split; [apply keeps_refl|]. split; [exact He|]. split; [exact Ecur|]. exact Hd.
        - inversion HF as [|? [k' w] ? ws' [Ek Hw] HF' E1 E2]; subst. cbn [fst snd] in Ek, Hw. subst k'. inversion HIH as [|? ? IHj HIH']; subst. cbn [snd] in IHj.
          cbn [map go_entries fst snd]. assert (HE := entry_run j w k H es cur IHj Hw (Hin k w (or_introl eq_refl)) K He Ecur). unfold gbind at 1.
          destruct (go_value X G in_turn R j t (gslash reft k) es) as [[x es1]|p] eqn:Ev; [|rule range_key_panics; apply HE].
          destruct HE as (r1 & H1 & cur1 & Gr1 & K1 & He1 & Ec1 & Hheld & Hrun).
          assert (KH1 : keeps [ta; ec] Hb H1) by (apply (keeps_trans _ _ H); assumption). destruct (Hctx r1 H1 Gr1 KH1) as (C1 & _).
          assert (Hd1 : go_empty es1 = true -> NoDup (keys (upsert k x d)) /\ Forall2 (fun kw kv => fst kw = fst kv /\ held H1 lo t (snd kw) (snd kv)) cur1 (upsert k x d)).
          { intros Hem. destruct (Hheld Hem) as (u & -> & Hu). destruct (Hd (grown_to_empty _ _ (gkeeps_in_turn _ _ _ _ _ _ Ev) Hem)) as [D1 D2].
            split; [now apply NoDup_keys_upsert|].
            apply (Forall2_upsert (held H1 lo t)); [apply (held_keeps [] H1 _ (length H)); [apply keeps_refl|intros ? []|exact Hlo|exact Hu]|].
            eapply Forall2_impl; [|exact D2]. intros p q [E Hh]. split; [exact E|]. apply (held_keeps [ta; ec] H _ lo); [exact K1|intros y [<-|[<-|[]]]; lia|lia|exact Hh]. }
          destruct (go_full es1) eqn:Hfull.
          + exists H1, cur1. split; [|repeat (split; [assumption|]); exact Hd1].
            rule range_key_break. apply Hrun. unfold when_full. destruct He1 as (ers & E & Hr). rule run_if_break; [rule eval_full; [exact C1|exact E]|].
            rewrite (rendered_full _ _ Hr), Hfull. rule run_break.
          + assert (IHn := IH ws' H1 es1 cur1 (upsert k x d) HIH' HF' (fun q y Hq => Hin q y (or_intror Hq)) KH1 ltac:(destruct K1; lia) He1 Ec1 Hd1).
            assert (Hstep : forall o, ev (loop (map (fun kv => (RStr (fst kv), snd kv)) ws')) H1 o -> ev (loop ((RStr k, w) :: map (fun kv => (RStr (fst kv), snd kv)) ws')) H o).
            { intros o Ho. rule range_key_step; [|exact Ho]. apply Hrun. eapply run_full_no; [exact C1|exact He1|exact Hfull|]. rule run_nil. }
            destruct (go_entries X _ t reft (upsert k x d) es1) as [[d' es2]|p]; [|now apply Hstep].
            destruct IHn as (H2 & cur2 & R2 & K2 & Hrest). exists H2, cur2. split; [now apply Hstep|]. split; [now apply (keeps_trans _ _ H1)|exact Hrest].
      Qed.
    End Map.
  End Loop.

  Lemma array_runs l t mn mx w registry avail value tg ref parts n code n' r H a v0 put es reft : Forall value_runs l ->
    json (JArr l) w -> usable avail (TArray t mn mx) -> parse_code G registry (TArray t mn mx) value tg ref n = (code, n') -> keeps M H0 H -> In a M \/ length H0 <= a -> a <> ec ->
    errors_at H es -> nth_error H a = Some v0 -> parts <> [] -> join (s_ "/") parts = reft -> lasting n r H (context registry avail value w tg a put ref parts) ->
    comes n r H a v0 put (TArray t mn mx) code (length H) (go_array X t mn mx (map (go_value X G in_turn R) l) reft es).
  Proof.
    intros HIH Hj Hu Hcode KM HaM Hne He Ha Hparts <- HL. cbn [usable] in Hu. cbn [parse_code] in Hcode.
    destruct (parse_code G registry t _ _ _ (S n)) as [item n2] eqn:Hitem. injection Hcode as <- <-.
    apply json_arr in Hj as (b & ws & -> & Hb & Eb & HF).
    eapply (parse_as_works registry avail value tg (RSlice b) a put ref parts n _ v0 Hne); [stem|exact HL|reflexivity|]. intros HL1 Hc.
    set (r1 := (num_var "ok" n, S (length H)) :: (num_var "cast" n, length H) :: r) in *. set (H1 := H ++ [RSlice b; RBool true]) in *.
    assert (Gr : grows n r r1) by (unfold r1; grow). assert (K1 : keeps [] H H1) by apply keeps_two. assert (Hal := nth_some_lt _ _ _ Ha).
    assert (L1 : length H1 = S (S (length H))) by (unfold H1; rewrite app_length; cbn; lia).
    assert (Hcell : cell_of r1 (num_var "cast" n) = Some (length H)) by (unfold r1; cells).
    assert (Hlen : length ws = length l) by (symmetry; apply (Forall2_len _ _ _ HF)).
    assert (KM1 : keeps M H0 H1) by (apply (keeps_M H H1 [] KM K1); intros ? []).
    assert (Eb1 : nth_error H1 b = Some (RItems ws)) by (apply KM1; assumption).
    assert (Hsize : forall H2, keeps [] H1 H2 -> evals r1 H2 (XLen (vr "cast" n)) (Out (RInt (Z.of_nat (length ws)), H2))).
    { intros H2 K2. rule eval_len; [rule eval_var; [exact Hcell|apply K2; [exact Hc|intros []]]|]. unfold size, andthen. rewrite (items_of X _ _ ws); [reflexivity|]. apply K2; [exact Eb1|intros []]. }
    pose proof (fun text about vs m (x : gval) => cast_report registry avail value tg (RSlice b) a put ref parts n v0 Hne r H es HL He Ha r1 H1 Gr K1 (TArray t mn mx) text about vs m x (length H)) as Hreport.
    assert (Hshow : forall H2, keeps [] H1 H2 -> Forall2 (fun e v => evals r1 H2 e (Out (v, H2))) [XLen (vr "cast" n)] [RInt (Z.of_nat (length ws))]).
    { intros H2 K2. constructor; [now apply Hsize|constructor]. }
    assert (Hmain : comes n r1 H1 a v0 put (TArray t mn mx)
       [SDefine [Some (num_var "target" n)] (XMake (go_ty (TArray t mn mx)) (Some (XLen (vr "cast" n)))); SRange (num_var "i" n) None (vr "cast" n) (item ++ [when_full SBreak]); SAssign [tg] (vr "target" n)]
       (length H) ((gdo d <- go_items X (map (go_value X G in_turn R) l) t (join (s_ "/") parts) 0; gret (GList d)) es)).
    { destruct (Hzero avail t Hu) as (z & Hz & Hzt). cbn [go_ty].
      set (H2 := H1 ++ [RItems (repeat z (length ws))]). assert (L2 : length H2 = S (length H1)) by (unfold H2; rewrite app_length; cbn; lia).
      set (H3 := H2 ++ [RSlice (length H1)]). set (r2 := (num_var "target" n, length H2) :: r1).
      assert (K2 : forall W, keeps W H1 H2) by (intros; apply keeps_app). assert (K3 : forall W, keeps W H2 H3) by (intros; apply keeps_app).
      assert (K13 : forall W, keeps W H1 H3) by (intros W; apply (keeps_trans _ _ H2); [apply K2|apply K3]).
      assert (K03 : forall W, keeps W H H3) by (intros W; apply (keeps_trans _ _ H1); [now apply keeps_nil|apply K13]).
      assert (Lec : ec < length H) by (destruct He as (? & E & _); now apply nth_some_lt in E).
      assert (L0 : length H0 <= length H) by (now destruct KM).
      assert (Lb : b < length H0) by (now apply nth_some_lt in Eb).
      assert (Nb : b <> ec) by (intros ->; now apply Hb).
      assert (Gr2 : grows n r r2) by (unfold r2; apply grows_cons; [stem|lia|exact Gr]).
      assert (E3 : nth_error H3 (length H1) = Some (RItems (repeat z (length ws)))) by (apply nth_app_l; apply nth_app_new).
      assert (Hctx3 : forall r' H', grows n r2 r' -> keeps [length H1; ec] H3 H' -> context registry avail value (RSlice b) tg a put ref parts r' H').
      { intros r' H' G' K'. apply HL; [now apply (grows_trans n n r r2)|]. apply (keeps_M' [ec] _ H H3 H' (K03 _) K'). intros q [<-|[<-|[]]]; [right; lia|left; now left]. }
      assert (Hr := items_run registry avail ref parts Hparts t Hu z Hz n r2 H3 (length H) (length H2) b (length H1)
        ltac:(apply (keeps_M H1 H3 [] KM1 (K13 _)); intros ? []) ltac:(lia) ltac:(unfold r2, r1; cells) ltac:(unfold r2, r1; cells) ltac:(repeat split; lia)
        ltac:(intros r' H' G' K'; destruct (Hctx3 r' H' G' K') as (_ & C2 & C3 & C4 & _); repeat split; assumption)
        item n2 Hitem ws ltac:(apply nth_app_l; apply nth_app_l; exact Hc) ltac:(apply nth_app_l; apply nth_app_l; exact Eb1) ltac:(apply nth_app_new)
        l ws 0 H3 es (repeat z (length ws)) HIH HF eq_refl ltac:(lia) (keeps_refl _ _) ltac:(apply (errors_keeps [] H); [apply K03|intros []|exact He]) E3 ltac:(apply repeat_length)
        ltac:(intros k Hk; rewrite repeat_length in Hk; clear -Hk; revert k Hk; induction (length ws) as [|q IHq]; intros [|k] Hk; cbn; try lia; [reflexivity|apply IHq; lia])).
      assert (Hranged : ranged X (RSlice b) H3 = Out (combine (map (fun i => RInt (Z.of_nat i)) (List.seq 0 (length l))) ws, H3)).
      { unfold ranged, andthen. rewrite (items_of X _ _ ws); [|apply nth_app_l; apply nth_app_l; exact Eb1]. unfold done. now rewrite Hlen. }
      assert (Hcast3 : evals r2 H3 (vr "cast" n) (Out (RSlice b, H3))) by (rule eval_var; [unfold r2, r1; cells|apply nth_app_l; apply nth_app_l; exact Hc]).
      assert (Hdef : forall rest o, runs r2 H3 rest o -> runs r1 H1 (SDefine [Some (num_var "target" n)] (XMake (GSlice (go_ty t)) (Some (XLen (vr "cast" n)))) :: rest) o).
      { intros rest o Ho. rule run_define; [rule eval_make_items; [exact Hzt|apply Hsize; apply keeps_refl]|exact Ho]. }
      unfold gbind. destruct (go_items X (map (go_value X G in_turn R) l) t (join (s_ "/") parts) 0 es) as [[xs es']|p].
      2: { intros rest. cbn [app]. apply Hdef. rule run_range_panics; [exact Hcast3|exact Hranged|exact Hr]. }
      destruct Hr as (H4 & cur & Hr & K4 & He4 & Ecur & Hh). unfold gret.
      assert (K14 : keeps [ec] H1 H4) by (apply (keeps_M' _ _ _ _ _ (K13 [ec]) K4); intros q [<-|[<-|[]]]; [right; lia|left; now left]).
      assert (L4 : length H3 <= length H4) by (now destruct K4). assert (L3 : length H3 = S (length H2)) by (unfold H3; rewrite app_length; cbn; lia).
      eapply (comes_after _ _ _ _ _ _ _ [SDefine _ _; SRange _ _ _ _] [SAssign _ _] _ _ r2 H4).
      - unfold r2. grow.
      - revert K14. apply keeps_more. intros q [<-|[]]. right. now left.
      - intros rest o Ho. cbn [app]. apply Hdef. rule run_range; [exact Hcast3|exact Hranged|exact Hr|exact Ho].
      - destruct (Hctx3 r2 H4 (grows_refl _ _) K4) as (_ & _ & _ & _ & D5).
        eapply comes_assign with (u := RSlice (length H1)); [rule eval_var; [apply cell_here|]|apply D5|..].
        + apply K4; [apply nth_app_new|intros [E|[E|[]]]; lia].
        + apply K14; [apply nth_app_l; exact Ha|intros [E|[]]; congruence].
        + exact Hne.
        + exact Hal.
        + exact He4.
        + intros Hem. destruct (Hh Hem) as (us & -> & HF2). cbn [firstn app] in Ecur. eapply held_array; [lia|exact Ecur|].
          eapply Forall2_impl; [|exact HF2]. intros p q Hpq. apply (held_keeps [] H4 _ (length H3)); [apply keeps_refl|intros ? []|lia|exact Hpq]. }
    unfold go_array. rewrite map_length, <- Hlen.
    assert (Hmax : comes n r1 H1 a v0 put (TArray t mn mx) (check_size IsGreater "maximum" mx ref n
       [SDefine [Some (num_var "target" n)] (XMake (go_ty (TArray t mn mx)) (Some (XLen (vr "cast" n)))); SRange (num_var "i" n) None (vr "cast" n) (item ++ [when_full SBreak]); SAssign [tg] (vr "target" n)])
       (length H) ((if match mx with Some m => (m <? Z.of_nat (length ws))%Z | None => false end
                    then greport (join (s_ "/") parts) (GMaximumSize (match mx with Some m => m | None => 0%Z end) (length ws)) GNil
                    else gdo d <- go_items X (map (go_value X G in_turn R) l) t (join (s_ "/") parts) 0; gret (GList d)) es)).
    { destruct mx as [m|]; [|exact Hmain]. cbn [check_size]. eapply comes_if; [rule eval_order; [apply Hsize; apply keeps_refl|rule eval_number|reflexivity]|].
      replace (decides IsGreater (Some (Z.of_nat (length ws) ?= m)%Z)) with (m <? Z.of_nat (length ws))%Z.
      - destruct (m <? Z.of_nat (length ws))%Z; [|exact Hmain]. unfold greport. eapply Hreport; [exact Hshow|now apply says_maximum].
      - rewrite Z.ltb_compare, Z.compare_antisym. destruct (Z.of_nat (length ws) ?= m)%Z; reflexivity. }
    destruct mn as [m|]; [|exact Hmax]. cbn [check_size]. eapply comes_if; [rule eval_order; [apply Hsize; apply keeps_refl|rule eval_number|reflexivity]|].
    replace (decides IsLess (Some (Z.of_nat (length ws) ?= m)%Z)) with (Z.of_nat (length ws) <? m)%Z.
    - destruct (Z.of_nat (length ws) <? m)%Z; [|exact Hmax]. unfold greport. eapply Hreport; [exact Hshow|now apply says_minimum].
    - rewrite Z.ltb_compare. destruct (Z.of_nat (length ws) ?= m)%Z; reflexivity.
  Qed.

  Lemma map_runs l t w registry avail value tg ref parts n code n' r H a v0 put es reft : Forall (fun kj => value_runs (snd kj)) l ->
    json (JObj l) w -> usable avail (TMap t) -> parse_code G registry (TMap t) value tg ref n = (code, n') -> keeps M H0 H -> In a M \/ length H0 <= a -> a <> ec ->
    errors_at H es -> nth_error H a = Some v0 -> parts <> [] -> join (s_ "/") parts = reft -> lasting n r H (context registry avail value w tg a put ref parts) ->
    comes n r H a v0 put (TMap t) code (length H) ((gdo d <- go_entries X (map (fun kv => (fst kv, go_value X G in_turn R (snd kv))) l) t reft []; gret (M_GoGen.GMap d)) es).
  Proof.
    intros HIH Hj Hu Hcode KM HaM Hne He Ha Hparts <- HL. cbn [usable] in Hu. cbn [parse_code] in Hcode.
    destruct (parse_code G registry t _ _ _ (S n)) as [item n2] eqn:Hitem. injection Hcode as <- <-.
    apply json_obj in Hj as (b & ws & -> & Hb & Eb & Hnd & HF).
    eapply (parse_as_works registry avail value tg (RMap b) a put ref parts n _ v0 Hne); [stem|exact HL|reflexivity|]. intros HL1 Hc.
    set (r1 := (num_var "ok" n, S (length H)) :: (num_var "cast" n, length H) :: r) in *. set (H1 := H ++ [RMap b; RBool true]) in *.
    assert (Gr : grows n r r1) by (unfold r1; grow). assert (K1 : keeps [] H H1) by apply keeps_two. assert (Hal := nth_some_lt _ _ _ Ha).
    assert (L1 : length H1 = S (S (length H))) by (unfold H1; rewrite app_length; cbn; lia).
    assert (KM1 : keeps M H0 H1) by (apply (keeps_M H H1 [] KM K1); intros ? []).
    assert (Eb1 : nth_error H1 b = Some (REntries ws)) by (apply KM1; assumption).
    destruct (Hzero avail t Hu) as (z & Hz & Hzt). cbn [go_ty].
    set (H2 := H1 ++ [REntries []]). assert (L2 : length H2 = S (length H1)) by (unfold H2; rewrite app_length; cbn; lia).
    set (H3 := H2 ++ [RMap (length H1)]). set (r2 := (num_var "target" n, length H2) :: r1).
    assert (L3 : length H3 = S (length H2)) by (unfold H3; rewrite app_length; cbn; lia).
    assert (K2 : forall W, keeps W H1 H2) by (intros; apply keeps_app). assert (K3 : forall W, keeps W H2 H3) by (intros; apply keeps_app).
    assert (K13 : forall W, keeps W H1 H3) by (intros W; apply (keeps_trans _ _ H2); [apply K2|apply K3]).
    assert (K03 : forall W, keeps W H H3) by (intros W; apply (keeps_trans _ _ H1); [now apply keeps_nil|apply K13]).
    assert (Lec : ec < length H) by (destruct He as (? & E & _); now apply nth_some_lt in E).
    assert (L0 : length H0 <= length H) by (now destruct KM).
    assert (Lb : b < length H0) by (now apply nth_some_lt in Eb).
    assert (Nb : b <> ec) by (intros ->; now apply Hb).
    assert (Gr2 : grows n r r2) by (unfold r2; apply grows_cons; [stem|lia|exact Gr]).
    assert (E3 : nth_error H3 (length H1) = Some (REntries [])) by (apply nth_app_l; apply nth_app_new).
    assert (Hctx3 : forall r' H', grows n r2 r' -> keeps [length H1; ec] H3 H' -> context registry avail value (RMap b) tg a put ref parts r' H').
    { intros r' H' G' K'. apply HL; [now apply (grows_trans n n r r2)|]. apply (keeps_M' [ec] _ H H3 H' (K03 _) K'). intros q [<-|[<-|[]]]; [right; lia|left; now left]. }
    assert (Hr := entries_run registry avail ref parts Hparts t Hu z Hz n r2 H3 (length H) (length H2) b (length H1)
      ltac:(apply (keeps_M H1 H3 [] KM1 (K13 _)); intros ? []) ltac:(lia) ltac:(unfold r2, r1; cells) ltac:(unfold r2, r1; cells) ltac:(repeat split; lia)
      ltac:(intros r' H' G' K'; destruct (Hctx3 r' H' G' K') as (_ & C2 & C3 & C4 & _); repeat split; assumption)
      Hzt item n2 Hitem ws ltac:(apply nth_app_l; apply nth_app_l; exact Hc) ltac:(apply nth_app_l; apply nth_app_l; exact Eb1) ltac:(apply nth_app_new)
      (length H3) ltac:(lia) ltac:(lia) l ws H3 es [] [] HIH HF
      ltac:(intros k y Hy; apply In_lookup; [rewrite (entries_keys _ _ _ _ HF); exact Hnd|exact Hy]) (keeps_refl _ _) (le_n _)
      ltac:(apply (errors_keeps [] H); [apply K03|intros []|exact He]) E3 ltac:(intros _; split; constructor)).
    assert (Hranged : ranged X (RMap b) H3 = Out (map (fun kv => (RStr (fst kv), snd kv)) ws, H3)).
    { unfold ranged, andthen. rewrite (entries_of X _ _ ws); [reflexivity|apply nth_app_l; apply nth_app_l; exact Eb1]. }
    assert (Hcast3 : evals r2 H3 (vr "cast" n) (Out (RMap b, H3))) by (rule eval_var; [unfold r2, r1; cells|apply nth_app_l; apply nth_app_l; exact Hc]).
    assert (Hdef : forall rest o, runs r2 H3 rest o -> runs r1 H1 (SDefine [Some (num_var "target" n)] (XMake (S_GoTyping.GMap (go_ty t)) None) :: rest) o).
    { intros rest o Ho. rule run_define; [rule eval_make_map|exact Ho]. }
    unfold gbind. destruct (go_entries X _ t (join (s_ "/") parts) [] es) as [[d es']|p].
    2: { intros rest. cbn [app]. apply Hdef. rule run_range_panics; [exact Hcast3|exact Hranged|exact Hr]. }
    destruct Hr as (H4 & cur & Hr & K4 & He4 & Ecur & Hh). unfold gret.
    assert (K14 : keeps [ec] H1 H4) by (apply (keeps_M' _ _ _ _ _ (K13 [ec]) K4); intros q [<-|[<-|[]]]; [right; lia|left; now left]).
    eapply (comes_after _ _ _ _ _ _ _ [SDefine _ _; SRange _ _ _ _] [SAssign _ _] _ _ r2 H4).
    - unfold r2. grow.
    - revert K14. apply keeps_more. intros q [<-|[]]. right. now left.
    - intros rest o Ho. cbn [app]. apply Hdef. rule run_range; [exact Hcast3|exact Hranged|exact Hr|exact Ho].
    - destruct (Hctx3 r2 H4 (grows_refl _ _) K4) as (_ & _ & _ & _ & D5).
      eapply comes_assign with (u := RMap (length H1)); [rule eval_var; [apply cell_here|]|apply D5|..].
      + apply K4; [apply nth_app_new|intros [E|[E|[]]]; lia].
      + apply K14; [apply nth_app_l; exact Ha|intros [E|[]]; congruence].
      + exact Hne.
      + exact Hal.
      + exact He4.
      + intros Hem. destruct (Hh Hem) as (D1 & D2). eapply held_map; [lia|exact Ecur|exact D1|].
        eapply Forall2_impl; [|exact D2]. intros p q [E Hpq]. split; [exact E|]. apply (held_keeps [] H4 _ (length H3)); [apply keeps_refl|intros ? []|lia|exact Hpq].
  Qed.

  (** * Structures *)
  Lemma upsert_same {A} k (x : A) l : lookup k l = Some x -> upsert k x l = l.
  Proof.
    induction l as [|[k' y] l IH]; cbn; [discriminate|]. destruct (str_eqb k k') eqn:E; [|intros H; now rewrite IH].
    apply str_eqb_eq in E. subst k'. now intros [= ->].
  Qed.
  Lemma replace_same {A} (x : A) l : forall i, nth_error l i = Some x -> replace i x l = l.
  Proof. induction l as [|y l IH]; intros [|i] E; cbn in *; try discriminate; [congruence|]. now rewrite IH. Qed.
  Lemma put_same path : forall v s : val, part path v = Some s -> with_part path s v = Some v.
  Proof.
    induction path as [|[f|i] path IH]; intros v s E; cbn in *; [congruence|..].
    - destruct v as [| | | | | | | | | | | | |l| | | |]; try discriminate. destruct (lookup f l) as [w|] eqn:El; [|discriminate]. rewrite (IH w s E). now rewrite upsert_same.
    - destruct v as [| | | | | | | | | | | | | | | |l|]; try discriminate. destruct (nth_error l i) as [w|] eqn:En; [|discriminate]. rewrite (IH w s E). now rewrite replace_same.
  Qed.

  Section Structure.
    Variable registry : cls -> gexpr.
    Variable avail : cls -> Prop.
    Variable reft : str.
    (** The JSON object, and the structure at the place of the target *)
    Variable l : list (str * jval).
    Variable b : nat.
    Variable wsall : list (str * val).
    Hypothesis Hb : ~ In b M.
    Hypothesis Eb : nth_error H0 b = Some (REntries wsall).
    Hypothesis HF : entries_in H0 M l wsall.
    Hypothesis HIH : Forall (fun kj => value_runs (snd kj)) l.
    Variable a : nat.
    Variable path : list step.
    Hypothesis HaM : In a M \/ length H0 <= a.
    Hypothesis Hne : a <> ec.
    Variable all : list prop.
    Variable rp : scope.
    Variable Hp : mem.
    Variable wsp : list (str * val).
    Hypothesis KMp : keeps M H0 Hp.
    Definition reach (H : mem) (ws : list (str * val)) : Prop :=
      keeps [a; ec] Hp H /\ (exists cv, nth_error H a = Some cv /\ part path cv = Some (RStruct ws)) /\ forall f, ~ In f (map (fun p => field (p_name p)) all) -> lookup f ws = lookup f wsp.
    Hypothesis Hctx : forall r' H' ws, grows 0 rp r' -> reach H' ws -> evals r' H' (ow "errors") (Out (RPointer (ec, []), H')) /\ evals r' H' (ow "cast") (Out (RMap b, H')) /\
      evals r' H' (ow "target") (Out (RPointer (a, path), H')) /\ evals r' H' (ow "ref") (Out (RStr reft, H')) /\ forall c, avail c -> evals r' H' (registry c) (Out (mv c, H')).
    Notation members := (map (fun kv => (fst kv, go_value X G in_turn R (snd kv))) l).
    Lemma reach_keeps H ws W H' : reach H ws -> keeps W H H' -> (forall q, In q W -> q = ec \/ length Hp <= q) -> (~ In a W) -> reach H' ws.
    Proof.
      intros (K & (cv & E1 & E2) & Hf) K' HW Ha. split; [apply (keeps_M' _ W _ _ _ K K'); intros q Hq; destruct (HW q Hq) as [->|Hl]; [left; right; now left|now right]|].
      split; [|exact Hf]. exists cv. split; [now apply K'|exact E2].
    Qed.
    Lemma reach_M H ws : reach H ws -> keeps M H0 H.
    Proof. intros (K & _). apply (keeps_M Hp H [a; ec] KMp K). intros q [<-|[<-|[]]]; [exact HaM|now left]. Qed.

    Lemma members_lookup k : match lookup k members with
      | Some f => exists j w, lookup k l = Some j /\ f = go_value X G in_turn R j /\ lookup k wsall = Some w /\ json j w /\ value_runs j
      | None => lookup k wsall = None
      end.
    Proof.
      clear Hctx. clear Eb. induction HF as [|[k1 j] [k2 w] l' ws' [E Hj] HF' IH]; [reflexivity|]. inversion HIH as [|? ? H1 H2]; subst. cbn in *. subst k2.
      destruct (str_eqb k k1); [exists j, w; repeat split; assumption|]. apply IH; assumption.
    Qed.

    Lemma property_runs p n code n' r H ws cv fields es w0 : In p all -> usable avail (p_type p) -> parse_property_code G registry p n = (code, n') -> grows 0 rp r -> reach H ws ->
      nth_error H a = Some cv -> part path cv = Some (RStruct ws) -> errors_at H es -> lookup (field (p_name p)) ws = Some w0 -> fresh_field p w0 -> lookup (field (p_name p)) fields = Some (zero_field X p) ->
      match go_property X p members reft fields es with
      | Panic _ => forall rest, runs r H (code ++ rest) Panicked
      | Done (fields', es') => exists r' H' cv' ws', grows n r r' /\ keeps [a; ec] H H' /\ errors_at H' es' /\ nth_error H' a = Some cv' /\ with_part path (RStruct ws') cv = Some cv' /\
          (forall g, g <> field (p_name p) -> lookup g ws' = lookup g ws) /\
          (go_empty es' = true -> exists w v, lookup (field (p_name p)) ws' = Some w /\ lookup (field (p_name p)) fields' = Some v /\ held_property H' (length H) p w v) /\
          forall rest o, runs r' H' rest o -> runs r H (code ++ rest) o
      end.
    Proof.
      intros Hall Hu Hcode Gr0 Hr Ea Epart He Ew0 Hfresh Ezero. set (f := field (p_name p)) in *.
      unfold parse_property_code in Hcode. change (ucamel (p_name p)) with f in Hcode.
      destruct (parse_code G registry (p_type p) _ _ _ (S n)) as [parsing n2] eqn:Hparse. injection Hcode as <- <-.
      assert (Hal := nth_some_lt _ _ _ Ea). assert (Lec : ec < length H) by (destruct He as (? & E & _); now apply nth_some_lt in E).
      assert (Lp : length Hp <= length H) by (now destruct Hr as ((? & _) & _)).
      destruct (Hctx r H ws Gr0 Hr) as (C1 & C2 & C3 & C4 & C5).
      assert (Hentry : entry X (RMap b) (RStr (p_json p)) H = Out (lookup (p_json p) wsall, H)) by (apply entry_map; now apply (reach_M _ _ Hr)).
      pose proof (values_index X printed go_dur_from duration_to structs functions globals _ _ _ _ _ _ _ _ _ C2 (eval_text X printed go_dur_from duration_to structs functions globals r H (p_json p)) Hentry) as Hvals.
      assert (Hml := members_lookup (p_json p)). unfold go_property. fold f.
      destruct (lookup (p_json p) members) as [parse|].
      - destruct Hml as (j & w & _ & -> & Elw & Hj & IHj). rewrite Elw in Hvals.
        set (r1 := (num_var "ok" n, S (length H)) :: (num_var "value" n, length H) :: r). set (H1 := H ++ [w; RBool true]).
        assert (K1 : forall W, keeps W H H1) by (intros; apply keeps_two).
        assert (L1 : length H1 = S (S (length H))) by (unfold H1; rewrite app_length; cbn; lia).
        assert (Eok : nth_error H1 (S (length H)) = Some (RBool true)) by (unfold H1; rewrite nth_error_app2 by lia; replace (S (length H) - length H) with 1 by lia; reflexivity).
        assert (Eval : nth_error H1 (length H) = Some w) by (unfold H1; rewrite nth_error_app2, Nat.sub_diag by lia; reflexivity).
        assert (Hdef : forall rest o, runs r1 H1 rest o -> runs r H (SDefine [Some (num_var "value" n); Some (num_var "ok" n)] (XIndex (ow "cast") (XText (p_json p))) :: rest) o).
        { intros rest o Ho. rule run_define2; [exact Hvals|exact Ho]. }
        assert (Hok : evals r1 H1 (vr "ok" n) (Out (RBool true, H1))) by (rule eval_var; [apply cell_here|exact Eok]).
        assert (He1 : errors_at H1 es) by (apply (errors_keeps [] H); [apply K1|intros []|exact He]).
        assert (Hlater : forall b0 r' H', (b0 = [] \/ exists c, b0 = [(num_var "target" n, c)]) -> grows (S n) (b0 ++ r1) r' -> keeps [ec; length H1] H1 H' ->
          context registry avail (vr "value" n) w (XField (ow "target") f) a (fun u => match with_part (path ++ [AtField f]) u cv with Some c => c | None => cv end) [ow "ref"; XText (p_json p)] [reft; p_json p] r' H').
        { intros b0 r' H' Hb0 Gr' K'.
          assert (G01 : grows 0 rp (b0 ++ r1)).
          { destruct Hb0 as [->|[c ->]]; cbn [app]; unfold r1; [|apply grows_cons; [stem|lia|]]; (apply grows_cons; [stem|lia|]; apply grows_cons; [stem|lia|exact Gr0]). }
          assert (G0 : grows 0 rp r') by (apply (grows_trans 0 (S n) rp (b0 ++ r1)); [lia|exact G01|exact Gr']).
          assert (Hr1 : reach H' ws).
          { apply (reach_keeps H1 ws [ec; length H1]); [apply (reach_keeps H ws []); [exact Hr|apply K1|intros ? []|intros []]|exact K'|intros q [<-|[<-|[]]]; [now left|right; lia]|intros [E|[E|[]]]; [now apply Hne|lia]]. }
          destruct (Hctx r' H' ws G0 Hr1) as (D1 & D2 & D3 & D4 & D5).
          split; [rule eval_var; [apply (grows_cell (S n) (b0 ++ r1)); [apply stable_num; [stem|lia]| |exact Gr']|]|].
          { destruct Hb0 as [->|[c ->]]; cbn [app]; unfold r1; cells. }
          { apply K'; [exact Eval|intros [E|[E|[]]]; lia]. }
          split; [exact D1|]. split; [exact D5|]. split; [constructor; [exact D4|constructor; [rule eval_text|constructor]]|].
          intros u. destruct (put_exists (path ++ [AtField f]) cv w0) as [put Hput]; [rewrite (part_app _ _ _ _ Epart); cbn [part]; now rewrite Ew0|]. rewrite Hput.
          change (replace a (put u) H') with (replace (fst (a, path ++ [AtField f])) (put u) H').
          rule assign_place; [exact I|exact (place_field_pointer X printed go_dur_from duration_to structs functions globals r' H' H' (ow "target") f (a, path) D3)|cbn [fst]|cbn [snd]; apply Hput].
          apply K'; [apply nth_app_l; exact Ea|intros [E|[E|[]]]; [now apply Hne|lia]]. }
        assert (Hcvw : forall u, with_part (path ++ [AtField f]) u cv = with_part path (RStruct (upsert f u ws)) cv) by (intros u; apply put_field; [exact Epart|now exists w0]).
        assert (Hput : forall u, exists c, with_part (path ++ [AtField f]) u cv = Some c).
        { intros u. destruct (put_exists (path ++ [AtField f]) cv w0) as [put Hput]; [rewrite (part_app _ _ _ _ Epart); cbn [part]; now rewrite Ew0|]. exists (put u). apply Hput. }
        destruct (p_optional p && negb (is_pointer_type (p_type p))) eqn:Eint.
        + (* a pointer to a variable *)
          apply andb_true_iff in Eint as [Eopt Eptr]. apply negb_true_iff in Eptr. rewrite Eopt.
          destruct (Hzero avail _ Hu) as (z & Hz & Hzt).
          set (r2 := (num_var "target" n, length H1) :: r1). set (H2 := H1 ++ [z]). assert (K2 : forall W, keeps W H1 H2) by (intros; apply keeps_app).
          assert (L2 : length H2 = S (length H1)) by (unfold H2; rewrite app_length; cbn; lia).
          assert (HC := IHj (p_type p) w registry avail (vr "value" n) (vr "target" n) [ow "ref"; XText (p_json p)] [reft; p_json p] (S n) parsing n2 r2 H2 (length H1) z (fun u => u) es (gslash reft (p_json p)) Hj Hu Hparse
            ltac:(apply (keeps_M H _ [] (reach_M _ _ Hr)); [apply (keeps_trans _ _ H1); [apply K1|apply K2]|intros ? []]) ltac:(right; destruct (reach_M _ _ Hr); lia) ltac:(lia)
            ltac:(apply (errors_keeps [] H1); [apply K2|intros []|exact He1]) ltac:(apply nth_app_new) ltac:(discriminate) eq_refl).
          assert (Hcell2 : forall r', grows (S n) r2 r' -> cell_of r' (num_var "target" n) = Some (length H1)) by (intros r' G'; apply (grows_cell (S n) r2); [apply stable_num; [stem|lia]|apply cell_here|exact G']).
          specialize (HC ltac:(intros r' H' G' K'; destruct (Hlater [(num_var "target" n, length H1)] r' H' (or_intror (ex_intro _ _ eq_refl)) G'
              ltac:(apply (keeps_trans _ _ H2); [apply K2|revert K'; apply keeps_more; intros q [<-|[]]; now left])) as (D1 & D2 & D3 & D4 & _);
              repeat (split; [assumption|]); intros u; rule assign_var; [now apply Hcell2|apply K'; [apply nth_app_new|intros [E|[]]; lia]])).
          specialize (HC ltac:(intros m _; exists [], z; split; [intros r' H' G' K'; rule place_var; now apply Hcell2|split; [reflexivity|split; [exact Hz|reflexivity]]])).
          unfold comes in HC. unfold gbind.
          destruct (go_value X G in_turn R j (p_type p) (gslash reft (p_json p)) es) as [[x es1]|pp].
          2: { intros rest. cbn [app]. apply Hdef. rule run_if_panics; [exact Hok|]. rule run_var; [exact Hzt|]. apply HC. }
          destruct HC as (r3 & H3 & c3 & Gr3 & K3 & He3 & Ec3 & _ & Hheld & Hrun). unfold gret.
          assert (KH3 : keeps [ec; length H1] H1 H3) by (apply (keeps_trans _ _ H2); [apply K2|revert K3; apply keeps_more; intros q [<-|[<-|[]]]; cbn; tauto]).
          destruct (Hlater [(num_var "target" n, length H1)] r3 H3 (or_intror (ex_intro _ _ eq_refl)) Gr3 KH3) as (_ & _ & _ & _ & D5).
          destruct (Hput (RPointer (length H1, []))) as [cv' Ecv']. specialize (D5 (RPointer (length H1, []))). rewrite Ecv' in D5.
          assert (L3 : length H2 <= length H3) by (now destruct K3).
          assert (Ka : keeps [a] H3 (replace a cv' H3)) by (apply keeps_replace; [left; now left|apply keeps_refl]).
          exists r1, (replace a cv' H3), cv', (upsert f (RPointer (length H1, [])) ws).
          split; [unfold r1; grow|]. split; [apply keeps_replace; [left; now left|]; apply (keeps_M' _ [ec; length H1] _ _ _ (K1 _) KH3); intros q [<-|[<-|[]]]; [left; right; now left|right; lia]|].
          split; [apply (errors_keeps [a] H3); [exact Ka|intros [E|[]]; now apply Hne|exact He3]|]. split; [apply nth_replace_same; lia|].
          split; [now rewrite <- Hcvw|]. split; [intros g Hg; apply lookup_upsert_neq; congruence|]. split.
          * intros Hem. destruct (Hheld Hem) as (u & -> & Hhu). exists (RPointer (length H1, [])), x. split; [apply lookup_upsert_eq|]. split; [apply lookup_upsert_eq|].
            apply held_optional with (w := u); [exact Eopt|exact Eptr|lia|rewrite nth_replace_other by lia; exact Ec3|].
            apply (held_keeps [a] H3 _ (length H2)); [exact Ka|intros q [<-|[]]; lia|lia|exact Hhu].
          * intros rest o Ho. cbn [app]. apply Hdef. rule run_if; [exact Hok| |exact Ho]. rule run_var; [exact Hzt|]. apply Hrun.
            rule run_assign; [rule eval_addr; rule place_var; now apply Hcell2|exact D5|]. rule run_nil.
        + (* the field itself *)
          assert (HC := IHj (p_type p) w registry avail (vr "value" n) (XField (ow "target") f) [ow "ref"; XText (p_json p)] [reft; p_json p] (S n) parsing n2 r1 H1 a cv
            (fun u => match with_part (path ++ [AtField f]) u cv with Some c => c | None => cv end) es (gslash reft (p_json p)) Hj Hu Hparse
            ltac:(apply (keeps_M H _ [] (reach_M _ _ Hr)); [apply K1|intros ? []]) HaM Hne He1 ltac:(now apply nth_app_l) ltac:(discriminate) eq_refl
            ltac:(intros r' H' G' K'; apply (Hlater [] r' H' (or_introl eq_refl) G'); revert K'; apply keeps_more; intros q [<-|[]]; now left)).
          assert (Hplace : target_place (XField (ow "target") f) a cv (fun u => match with_part (path ++ [AtField f]) u cv with Some c => c | None => cv end) (p_type p) (S n) r1 H1).
          { intros m Em. exists (path ++ [AtField f]), w0. split; [|split; [|split]].
            - intros r' H' G' K'. assert (G0 : grows 0 rp r') by (apply (grows_trans 0 (S n) rp r1); [lia| |exact G']; unfold r1; apply grows_cons; [stem|lia|]; apply grows_cons; [stem|lia|exact Gr0]).
              assert (Hr1 : reach H' ws) by (apply (reach_keeps H1 ws [ec]); [apply (reach_keeps H ws []); [exact Hr|apply K1|intros ? []|intros []]|exact K'|intros q [<-|[]]; now left|intros [E|[]]; now apply Hne]).
              destruct (Hctx r' H' ws G0 Hr1) as (_ & _ & D3 & _). pose proof (place_field_pointer X printed go_dur_from duration_to structs functions globals r' H' H' (ow "target") f (a, path) D3) as HP. exact HP.
            - rewrite (part_app _ _ _ _ Epart). cbn [part]. now rewrite Ew0.
            - apply Hfresh. rewrite Em in Eint. cbn in Eint. destruct (p_optional p); [discriminate|reflexivity].
            - intros u. destruct (Hput u) as [c ->]. reflexivity. }
          specialize (HC Hplace).
          set (put := fun u => match with_part (path ++ [AtField f]) u cv with Some c => c | None => cv end) in *.
          assert (HC2 : comes n r1 H1 a cv put (p_type p)
              [if p_optional p then SIf (vr "ok" n) parsing [] else SIf (XNot (vr "ok" n)) [SDo (meth (ow "errors") "Add" [ow "ref"; XText (s_ "property is missing: " ++ p_json p)])] parsing]
              (length H1) (go_value X G in_turn R j (p_type p) (gslash reft (p_json p)) es)).
          { apply (comes_weaken n (S n)) in HC; [|lia]. destruct (p_optional p); [eapply comes_if; [exact Hok|exact HC]|eapply comes_if; [rule eval_not; exact Hok|exact HC]]. }
          clear HC. unfold comes in HC2. unfold gbind.
          assert (Ecode : (if p_optional p then SIf (vr "ok" n) (if false then SVar (num_var "target" n) (go_ty (p_type p)) :: parsing ++ [SAssign [XField (ow "target") f] (XAddr (vr "target" n))] else parsing) []
             else SIf (XNot (vr "ok" n)) [SDo (meth (ow "errors") "Add" [ow "ref"; XText (s_ "property is missing: " ++ p_json p)])] parsing) =
             (if p_optional p then SIf (vr "ok" n) parsing [] else SIf (XNot (vr "ok" n)) [SDo (meth (ow "errors") "Add" [ow "ref"; XText (s_ "property is missing: " ++ p_json p)])] parsing)) by reflexivity.
          destruct (go_value X G in_turn R j (p_type p) (gslash reft (p_json p)) es) as [[x es1]|pp].
          2: { intros rest. cbn [app]. apply Hdef. apply HC2. }
          destruct HC2 as (r3 & H3 & c3 & Gr3 & K3 & He3 & Ec3 & Hshape & Hheld & Hrun). unfold gret.
          assert (Hws : exists ws', with_part path (RStruct ws') cv = Some c3 /\ (forall g, g <> f -> lookup g ws' = lookup g ws) /\ forall u, c3 = put u -> c3 <> cv -> lookup f ws' = Some u \/ True).
          { destruct Hshape as [->|[u ->]].
            - exists ws. split; [now apply put_same|]. split; [reflexivity|]. intros; now right.
            - exists (upsert f u ws). split; [rewrite <- Hcvw; unfold put; destruct (Hput u) as [c ->]; reflexivity|]. split; [intros g Hg; apply lookup_upsert_neq; congruence|]. intros; now right. }
          destruct (go_empty es1) eqn:Hem1.
          * destruct (Hheld eq_refl) as (u & Eu & Hhu). exists r3, H3, c3, (upsert f u ws).
            split; [apply (grows_trans n n r r1); [lia|unfold r1; grow|exact Gr3]|]. split; [apply (keeps_trans _ _ H1); [apply K1|exact K3]|]. split; [exact He3|]. split; [exact Ec3|].
            split; [rewrite <- Hcvw, Eu; unfold put; destruct (Hput u) as [c ->]; reflexivity|]. split; [intros g Hg; apply lookup_upsert_neq; congruence|]. split.
            -- intros _. exists u, x. split; [apply lookup_upsert_eq|]. split; [apply lookup_upsert_eq|].
               assert (Hhu' : held H3 (length H) (p_type p) u x) by (apply (held_keeps [] H3 _ (length H1)); [apply keeps_refl|intros ? []|lia|exact Hhu]).
               destruct (p_optional p) eqn:Eopt; [apply held_nillable; [exact Eopt|now apply negb_false_iff in Eint|exact Hhu']|now apply held_required].
            -- intros rest o Ho. cbn [app]. apply Hdef. apply Hrun. exact Ho.
          * destruct Hws as (ws' & W1 & W2 & _). exists r3, H3, c3, ws'.
            split; [apply (grows_trans n n r r1); [lia|unfold r1; grow|exact Gr3]|]. split; [apply (keeps_trans _ _ H1); [apply K1|exact K3]|]. split; [exact He3|]. split; [exact Ec3|].
            split; [exact W1|]. split; [exact W2|]. split; [discriminate|]. intros rest o Ho. cbn [app]. apply Hdef. apply Hrun. exact Ho.
      - (* missing *)
        rewrite Hml in Hvals.
        set (r1 := (num_var "ok" n, S (length H)) :: (num_var "value" n, length H) :: r). set (H1 := H ++ [RNil; RBool false : val]).
        assert (K1 : forall W, keeps W H H1) by (intros; apply keeps_two).
        assert (Eok : nth_error H1 (S (length H)) = Some (RBool false)) by (unfold H1; rewrite nth_error_app2 by lia; replace (S (length H) - length H) with 1 by lia; reflexivity).
        assert (Hdef : forall rest o, runs r1 H1 rest o -> runs r H (SDefine [Some (num_var "value" n); Some (num_var "ok" n)] (XIndex (ow "cast") (XText (p_json p))) :: rest) o).
        { intros rest o Ho. rule run_define2; [exact Hvals|exact Ho]. }
        assert (Hok : evals r1 H1 (vr "ok" n) (Out (RBool false, H1))) by (rule eval_var; [apply cell_here|exact Eok]).
        assert (He1 : errors_at H1 es) by (apply (errors_keeps [] H); [apply K1|intros []|exact He]).
        assert (Gr1 : grows n r r1) by (unfold r1; grow).
        destruct (p_optional p) eqn:Eopt.
        + unfold gret. exists r1, H1, cv, ws. split; [exact Gr1|]. split; [apply K1|]. split; [exact He1|]. split; [now apply nth_app_l|]. split; [now apply put_same|]. split; [reflexivity|]. split.
          * intros _. exists RNil, GNil. split; [rewrite Ew0; f_equal; now apply Hfresh|]. split; [rewrite Ezero; unfold zero_field; now rewrite Eopt|now apply held_none].
          * intros rest o Ho. cbn [app]. apply Hdef. rule run_if; [exact Hok|rule run_nil|exact Ho].
        + unfold greport. destruct He1 as (ers & Eers & Hren).
          assert (Hr1 : reach H1 ws) by (apply (reach_keeps H ws []); [exact Hr|apply K1|intros ? []|intros []]).
          destruct (Hctx r1 H1 ws ltac:(unfold r1; apply grows_cons; [stem|lia|]; apply grows_cons; [stem|lia|exact Gr0]) Hr1) as (D1 & _ & _ & D4 & _).
          set (text := s_ "property is missing: " ++ p_json p).
          exists r1, (replace ec (RErrors (go_add ers (reft, text))) H1), cv, ws. split; [exact Gr1|].
          split; [apply keeps_replace; [left; right; now left|apply K1]|].
          split; [exists (go_add ers (reft, text)); split; [apply nth_replace_same; now apply nth_some_lt in Eers|apply rendered_add; [exact Hren|apply says_missing]]|].
          split; [rewrite nth_replace_other by congruence; now apply nth_app_l|]. split; [now apply put_same|]. split; [reflexivity|].
          split; [now rewrite not_empty|]. intros rest o Ho. cbn [app]. apply Hdef. rule run_if; [rule eval_not; exact Hok| |exact Ho]. cbn [negb].
          rule run_add; [exact D1|rule args_cons; [exact D4|rule args_cons; [rule eval_text|rule args_nil]]|exact Eers|]. rule run_nil.
    Qed.

    Lemma property_others p fields es fields' es' : go_property X p members reft fields es = Done (fields', es') -> forall g, g <> field (p_name p) -> lookup g fields' = lookup g fields.
    Proof.
      unfold go_property, gbind, gret, greport. intros E g Hg. destruct (lookup (p_json p) members) as [f|].
      - destruct (f (p_type p) _ es) as [[x es1]|]; [|discriminate]. injection E as <- <-. apply lookup_upsert_neq. congruence.
      - destruct (p_optional p); now injection E as <- <-.
    Qed.
    Lemma properties_others ps : forall fields es fields' es', go_properties X ps members reft fields es = Done (fields', es') ->
      forall g, ~ In g (map (fun p => field (p_name p)) ps) -> lookup g fields' = lookup g fields.
    Proof.
      induction ps as [|p ps IH]; intros fields es fields' es' E g Hg; cbn in E; [now injection E as <- <-|]. unfold gbind in E.
      destruct (go_property X p members reft fields es) as [[f1 es1]|] eqn:E1; [|discriminate].
      assert (Eg := property_others _ _ _ _ _ E1 g ltac:(intros ->; apply Hg; now left)).
      destruct (go_full es1); [injection E as <- <-; exact Eg|]. rewrite <- Eg. apply (IH _ _ _ _ E). intros Hi. apply Hg. now right.
    Qed.
    Lemma members_kept : members_keep X members.
    Proof. clear. induction l as [|[k j] l' IH]; constructor; [|exact IH]. intros t s. apply gkeeps_in_turn. Qed.
    Lemma properties_run : forall ps n r H ws cv fields es, incl ps all -> NoDup (map (fun p => field (p_name p)) ps) -> Forall (fun p => usable avail (p_type p)) ps ->
      grows 0 rp r -> reach H ws -> nth_error H a = Some cv -> part path cv = Some (RStruct ws) -> errors_at H es ->
      (forall p, In p ps -> (exists w0, lookup (field (p_name p)) ws = Some w0 /\ fresh_field p w0) /\ lookup (field (p_name p)) fields = Some (zero_field X p)) ->
      match go_properties X ps members reft fields es with
      | Panic _ => forall rest, runs r H (parse_properties_code G registry ps n ++ rest) Panicked
      | Done (fields', es') => exists H' cv' ws', keeps [a; ec] H H' /\ errors_at H' es' /\ nth_error H' a = Some cv' /\ with_part path (RStruct ws') cv = Some cv' /\
          (forall g, ~ In g (map (fun p => field (p_name p)) ps) -> lookup g ws' = lookup g ws) /\
          (go_empty es' = true -> forall p, In p ps -> exists w v, lookup (field (p_name p)) ws' = Some w /\ lookup (field (p_name p)) fields' = Some v /\ held_property H' (length H) p w v) /\
          runs r H (parse_properties_code G registry ps n ++ [SReturn]) (Out (Return, H'))
      end.
    Proof.
      induction ps as [|p ps IH]; intros n r H ws cv fields es Hincl Hnd Hus Gr Hr Ea Epart He Hf.
      - cbn. exists H, cv, ws. split; [apply keeps_refl|]. split; [exact He|]. split; [exact Ea|]. split; [now apply put_same|]. split; [reflexivity|]. split; [intros _ ? []|rule run_return].
      - cbn [go_properties parse_properties_code]. inversion Hnd as [|? ? Hp1 Hnd']; subst. inversion Hus as [|? ? Hu1 Hus']; subst.
        destruct (parse_property_code G registry p n) as [code n'] eqn:Hcode.
        destruct (Hf p (or_introl eq_refl)) as ((w0 & Ew0 & Hfr) & Ez).
        assert (HP := property_runs p n code n' r H ws cv fields es w0 (Hincl _ (or_introl eq_refl)) Hu1 Hcode Gr Hr Ea Epart He Ew0 Hfr Ez).
        unfold gbind. destruct (go_property X p members reft fields es) as [[f1 es1]|] eqn:E1; [|intros rest; rewrite <- app_assoc; apply HP].
        destruct HP as (r1 & H1 & cv1 & ws1 & Gr1 & K1 & He1 & Ea1 & Ep1 & Ho1 & Hh1 & Hrun1).
        assert (G1 : grows 0 rp r1) by (apply (grows_trans 0 n rp r); [lia|exact Gr|exact Gr1]).
        assert (Epart1 : part path cv1 = Some (RStruct ws1)) by (now apply (part_put _ _ _ _ Ep1)).
        assert (Hr1 : reach H1 ws1).
        { destruct Hr as (Kr & _ & Hfr1). split; [apply (keeps_trans _ _ H); [exact Kr|exact K1]|]. split; [now exists cv1|].
          intros g Hg. rewrite Ho1; [now apply Hfr1|]. intros ->. apply Hg. apply (in_map (fun p => field (p_name p))). apply Hincl. now left. }
        destruct (Hctx r1 H1 ws1 G1 Hr1) as (C1 & _).
        assert (Hal := nth_some_lt _ _ _ Ea). assert (Lec : ec < length H) by (destruct He as (? & E & _); now apply nth_some_lt in E). assert (LH : length H <= length H1) by (now destruct K1).
        destruct (go_full es1) eqn:Efull.
        + exists H1, cv1, ws1. repeat (split; [assumption|]). split; [intros g Hg; apply Ho1; intros ->; apply Hg; now left|].
          split; [intros Hem; exfalso; now apply (full_not_empty es1)|]. rewrite <- app_assoc. apply Hrun1. unfold when_full. cbn [app]. destruct He1 as (ers & E & Hren).
          rule run_if_return; [rule eval_full; [exact C1|exact E]|]. rewrite (rendered_full _ _ Hren), Efull. rule run_return.
        + assert (Hfs : forall q, In q ps -> field (p_name q) <> field (p_name p)).
          { intros q Hq E. apply Hp1. rewrite <- E. now apply (in_map (fun p => field (p_name p))). }
          specialize (IH n' r1 H1 ws1 cv1 f1 es1 ltac:(intros q Hq; apply Hincl; now right) Hnd' Hus' G1 Hr1 Ea1 Epart1 He1).
          specialize (IH ltac:(intros q Hq; rewrite (Ho1 _ (Hfs q Hq)), (property_others _ _ _ _ _ E1 _ (Hfs q Hq)); apply Hf; now right)).
          destruct (go_properties X ps members reft f1 es1) as [[f2 es2]|] eqn:E2.
          2: { intros rest. rewrite <- app_assoc. apply Hrun1. cbn [app]. apply (run_full_no _ _ es1); [exact C1|exact He1|exact Efull|]. apply IH. }
          destruct IH as (H2 & cv2 & ws2 & K2 & He2 & Ea2 & Ep2 & Ho2 & Hh2 & Hrun2).
          exists H2, cv2, ws2. split; [apply (keeps_trans _ _ H1); assumption|]. split; [exact He2|]. split; [exact Ea2|]. split; [rewrite <- Ep2; symmetry; apply (put_put _ _ _ _ _ Ep1)|].
          split; [intros g Hg; rewrite Ho2; [apply Ho1; intros ->; apply Hg; now left|intros Hi; apply Hg; now right]|]. split.
          * intros Hem q [<-|Hq].
            -- assert (Hem1 : go_empty es1 = true).
               { apply (grown_to_empty es1 es2); [|exact Hem]. apply (gkeeps_properties X ps members reft members_kept f1 es1 f2 es2 E2). }
               destruct (Hh1 Hem1) as (w & v & L1 & L2 & Hhp). exists w, v. split; [rewrite Ho2; [exact L1|exact Hp1]|]. split; [rewrite (properties_others ps _ _ _ _ E2 _ Hp1); exact L2|].
               apply (held_property_keeps [a; ec] H1 _ (length H)); [exact K2|intros q [<-|[<-|[]]]; lia|lia|exact Hhp].
            -- destruct (Hh2 Hem q Hq) as (w & v & L1 & L2 & Hhp). exists w, v. split; [exact L1|]. split; [exact L2|].
               apply (held_property_keeps [] H2 _ (length H1)); [apply keeps_refl|intros ? []|exact LH|exact Hhp].
          * rewrite <- app_assoc. apply Hrun1. cbn [app]. apply (run_full_no _ _ es1); [exact C1|exact He1|exact Efull|]. exact Hrun2.
    Qed.
  End Structure.

  (** * Functions *)
  Fixpoint bound (xs : list thing) (k : nat) (r : scope) : scope := match xs with [] => r | x :: xs' => bound xs' (S k) ((x, k) :: r) end.
  Lemma declare_bound xs : forall vs r (H : mem), length xs = length vs -> declare X (map (@Some thing) xs) vs r H = Out (bound xs (length H) r, H ++ vs).
  Proof.
    induction xs as [|x xs IH]; intros [|v vs] r H E; try discriminate; cbn; [now rewrite app_nil_r|]. unfold andthen, alloc. rewrite IH by (cbn in E; lia).
    rewrite app_length, <- app_assoc. cbn. now replace (length H + 1) with (S (length H)) by lia.
  Qed.
  Lemma bound_other xs : forall k r x, ~ In x xs -> cell_of (bound xs k r) x = cell_of r x.
  Proof.
    induction xs as [|y xs IH]; intros k r x Hx; [reflexivity|]. cbn [bound]. rewrite IH by (intros Hi; apply Hx; now right). apply cell_before. intros ->. apply Hx. now left.
  Qed.
  Lemma bound_cell xs : forall k r i x, NoDup xs -> nth_error xs i = Some x -> cell_of (bound xs k r) x = Some (k + i).
  Proof.
    induction xs as [|y xs IH]; intros k r i x Hnd E; [destruct i; discriminate|]. inversion Hnd as [|? ? Hy Hnd']; subst. destruct i as [|i]; cbn in E.
    - injection E as ->. cbn [bound]. rewrite bound_other by exact Hy. rewrite cell_here. now rewrite Nat.add_0_r.
    - cbn [bound]. rewrite (IH _ _ _ _ Hnd' E). f_equal. lia.
  Qed.
  Lemma bound_value xs vs (H : mem) i x v : NoDup xs -> nth_error xs i = Some x -> nth_error vs i = Some v ->
    cell_of (bound xs (length H) []) x = Some (length H + i) /\ nth_error (H ++ vs) (length H + i) = Some v.
  Proof.
    intros Hnd E1 E2. split; [now apply bound_cell|]. rewrite nth_error_app2 by lia. now replace (length H + i - length H) with i by lia.
  Qed.
  Lemma call_runs f fn vs (H : mem) o : (forall vs, library f vs = None) -> find (fun fn => str_eqb (gf_name fn) f) functions = Some fn -> gf_results fn = [] ->
    length (gf_params fn) = length vs -> runs (bound (map fst (gf_params fn)) (length H) []) (H ++ vs) (gf_body fn) o -> o <> Stuck ->
    ev (fun n => called n f vs) H (match o with Out (_, H') => Out ([], H') | Panicked => Panicked | Stuck => Stuck end).
  Proof.
    intros Hl Hf Hr Hlen Hrun Ho. eapply ev_step; [intros n; cbn - [S_GoRun.exec S_GoRun.all_zero S_GoRun.library]; rewrite Hl, Hf; reflexivity|].
    eapply ev_bind; [apply ev_const; reflexivity|]. cbn beta. rewrite Hr. cbn [map].
    eapply ev_bind; [exists 1; intros [|n] Hn; [lia|]; cbn; reflexivity|].
    cbn beta. eapply ev_bind; [apply ev_const; rewrite <- (map_map fst (@Some thing)); apply declare_bound; now rewrite map_length|]. cbn beta.
    eapply ev_bind; [apply ev_const; reflexivity|]. cbn beta. destruct o as [[s H']| |].
    - eapply ev_bind; [exact Hrun|]. apply ev_const. reflexivity.
    - now apply ev_panic.
    - contradiction.
  Qed.

  Lemma preconditions_run v w reft a path es r H cast k1 k2 k3 k4 : cast = None \/ cast = Some (Own "cast") -> json v w -> errors_at H es ->
    cell_of r (Own "value") = Some k1 -> nth_error H k1 = Some w -> cell_of r (Own "target") = Some k2 -> nth_error H k2 = Some (RPointer (a, path)) ->
    cell_of r (Own "errors") = Some k3 -> nth_error H k3 = Some (RPointer (ec, [])) -> cell_of r (Own "ref") = Some k4 -> nth_error H k4 = Some (RStr reft) ->
    if negb (go_empty es) then forall rest, runs r H (preconditions cast ++ rest) Panicked else
    match v with
    | JObj _ => forall rest o,
        (match cast with
         | Some x => runs ((Own "ok", S (length H)) :: (x, length H) :: r) (H ++ [w; RBool true]) rest o
         | None => runs ((Own "ok", length H) :: r) (H ++ [RBool true]) rest o
         end) -> runs r H (preconditions cast ++ rest) o
    | _ => exists H', keeps [ec] H H' /\ errors_at H' (gadd reft (GExpectedType (s_ "a map[string]interface{}") (gtype_of v)) es) /\ forall rest, runs r H (preconditions cast ++ rest) (Out (Return, H'))
    end.
  Proof.
    intros Hcastx Hj He C1 V1 C2 V2 C3 V3 C4 V4.
    assert (Ev : evals r H (ow "value") (Out (w, H))) by (rule eval_var; eassumption). assert (Et : evals r H (ow "target") (Out (RPointer (a, path), H))) by (rule eval_var; eassumption).
    assert (Ee : evals r H (ow "errors") (Out (RPointer (ec, []), H))) by (rule eval_var; eassumption).
    unfold preconditions. cbn [app]. assert (He' := He). destruct He' as (ers & E & Hren).
    assert (Hpre : forall rest o, runs r H rest o -> runs r H (SIf (XEqual IsEqual (ow "target") XNil) [SDo (M_GoTyping.call "panic" [lit "unexpected nil target"])] [] ::
        SIf (XEqual IsEqual (ow "errors") XNil) [SDo (M_GoTyping.call "panic" [lit "unexpected nil errors"])] [] :: rest) o).
    { intros rest o Ho. rule run_if; [rule eval_equal; [exact Et|rule eval_nil|reflexivity]|rule run_nil|]. rule run_if; [rule eval_equal; [exact Ee|rule eval_nil|reflexivity]|rule run_nil|]. exact Ho. }
    assert (Hempty : evals r H (XNot (meth (ow "errors") "Empty" [])) (Out (RBool (negb (go_empty es)), H))).
    { rewrite <- (rendered_empty _ _ Hren). rule eval_not. rule eval_empty; [exact Ee|exact E]. }
    destruct (go_empty es) eqn:Hem; cbn [negb] in *.
    2: { intros rest. apply Hpre. rule run_if_panics; [exact Hempty|]. rule run_call_panics; [rule args_cons; [rule eval_text|rule args_nil]|]. rule call_library; reflexivity. }
    assert (Hpre2 : forall s rest o, runs r H rest o -> runs r H (SIf (XEqual IsEqual (ow "target") XNil) [SDo (M_GoTyping.call "panic" [lit "unexpected nil target"])] [] ::
        SIf (XEqual IsEqual (ow "errors") XNil) [SDo (M_GoTyping.call "panic" [lit "unexpected nil errors"])] [] :: SIf (XNot (meth (ow "errors") "Empty" [])) s [] :: rest) o).
    { intros s rest o Ho. apply Hpre. rule run_if; [exact Hempty|rule run_nil|exact Ho]. }
    assert (Hlast : forall (H : mem) p q, nth_error (H ++ [p; q]) (S (length H)) = Some q) by (intros H' p q; rewrite nth_error_app2 by lia; replace (S (length H') - length H') with 1 by lia; reflexivity).
    destruct (match v with JObj _ => true | _ => false end) eqn:Ek.
    - assert (Hcast : has_type X w t_object = true) by (pose proof (json_kind _ _ _ _ Hj) as Hk; destruct v; try discriminate; destruct w; try discriminate; reflexivity).
      assert (Hgoal : forall rest o, (match cast with Some x => runs ((Own "ok", S (length H)) :: (x, length H) :: r) (H ++ [w; RBool true]) rest o
         | None => runs ((Own "ok", length H) :: r) (H ++ [RBool true]) rest o end) ->
         runs r H (SDefine [cast; Some (Own "ok")] (XAssert (ow "value") t_object) :: SIf (XNot (ow "ok")) [complain (ow "ref") (s_ "expected a map[string]interface{}, but got: %T") [ow "value"]; SReturn] [] :: rest) o).
      { intros rest o Ho. destruct cast as [x|].
        - rule run_define2; [rule values_assert; [exact Ev|exact Hcast]|]. rule run_if; [rule eval_not; rule eval_var; [apply cell_here|apply Hlast]|rule run_nil|exact Ho].
        - rule run_define_second; [rule values_assert; [exact Ev|exact Hcast]|]. rule run_if; [rule eval_not; rule eval_var; [apply cell_here|apply nth_app_new]|rule run_nil|exact Ho]. }
      destruct v; try discriminate. intros rest o Ho. apply Hpre2. apply Hgoal. exact Ho.
    - assert (Hcast : has_type X w t_object = false) by (apply (wrong_type v); [exact Hj|destruct v; try exact I; discriminate]).
      assert (Hgoal : exists H', keeps [ec] H H' /\ errors_at H' (gadd reft (GExpectedType (s_ "a map[string]interface{}") (gtype_of v)) es) /\
         forall rest, runs r H (SDefine [cast; Some (Own "ok")] (XAssert (ow "value") t_object) :: SIf (XNot (ow "ok")) [complain (ow "ref") (s_ "expected a map[string]interface{}, but got: %T") [ow "value"]; SReturn] [] :: rest) (Out (Return, H'))).
      { assert (Hz : zero_is t_object RNil) by (apply zero_simple; reflexivity).
        assert (Hs : says (GExpectedType (s_ "a map[string]interface{}") (gtype_of v)) (printed (s_ "expected a map[string]interface{}, but got: %T") [w])).
        { eapply says_type; [exact (json_kind _ _ _ _ Hj)|reflexivity]. }
        assert (Hrep : forall r1 H1, keeps [] H H1 -> cell_of r1 (Own "value") = Some k1 -> cell_of r1 (Own "errors") = Some k3 -> cell_of r1 (Own "ref") = Some k4 -> cell_of r1 (Own "ok") = Some (length H1 - 1) ->
          nth_error H1 (length H1 - 1) = Some (RBool false) ->
          exists H', keeps [ec] H1 H' /\ errors_at H' (gadd reft (GExpectedType (s_ "a map[string]interface{}") (gtype_of v)) es) /\
          forall rest, runs r1 H1 (SIf (XNot (ow "ok")) [complain (ow "ref") (s_ "expected a map[string]interface{}, but got: %T") [ow "value"]; SReturn] [] :: rest) (Out (Return, H'))).
        { intros r1 H1 K1 D1 D3 D4 D5 D6. assert (KK : forall k u, nth_error H k = Some u -> nth_error H1 k = Some u) by (intros k u Eu; apply K1; [exact Eu|intros []]).
          destruct (run_report r1 H1 H1 es (ow "ref") reft (s_ "expected a map[string]interface{}, but got: %T") [ow "value"] [w] _ ltac:(rule eval_var; [exact D3|now apply KK])
            ltac:(apply (errors_keeps [] H); [exact K1|intros []|exact He]) ltac:(rule eval_var; [exact D4|now apply KK]) (keeps_refl _ _) ltac:(constructor; [rule eval_var; [exact D1|now apply KK]|constructor]) Hs) as (H' & K' & He' & Hrun).
          exists H'. split; [exact K'|]. split; [exact He'|]. intros rest. rule run_if_return; [rule eval_not; rule eval_var; [exact D5|exact D6]|]. cbn [negb]. apply Hrun. rule run_return. }
        destruct Hcastx as [->| ->].
        - destruct (Hrep ((Own "ok", length H) :: r) (H ++ [RBool false])) as (H' & K' & He' & Hrun); try (cells; fail); [apply keeps_app|..].
          { rewrite app_length. cbn [length]. replace (length H + 1 - 1) with (length H) by lia. apply cell_here. }
          { rewrite app_length. cbn [length]. replace (length H + 1 - 1) with (length H) by lia. apply nth_app_new. }
          exists H'. split; [apply (keeps_trans _ _ (H ++ [RBool false])); [apply keeps_app|exact K']|]. split; [exact He'|]. intros rest.
          rule run_define_second; [rule values_no_assert; [exact Ev|exact Hcast|exact Hz]|]. apply Hrun.
        - destruct (Hrep ((Own "ok", S (length H)) :: (Own "cast", length H) :: r) (H ++ [RNil; RBool false])) as (H' & K' & He' & Hrun); try (cells; fail); [apply keeps_two|..].
          { rewrite app_length. cbn [length]. replace (length H + 2 - 1) with (S (length H)) by lia. apply cell_here. }
          { rewrite app_length. cbn [length]. replace (length H + 2 - 1) with (S (length H)) by lia. apply Hlast. }
          exists H'. split; [apply (keeps_trans _ _ (H ++ [RNil; RBool false])); [apply keeps_two|exact K']|]. split; [exact He'|]. intros rest.
          rule run_define2; [rule values_no_assert; [exact Ev|exact Hcast|exact Hz]|]. apply Hrun. }
      destruct v; try discriminate; (destruct Hgoal as (H' & G1 & G2 & G3); exists H'; split; [exact G1|split; [exact G2|]]; intros rest; apply Hpre2; apply G3).
  Qed.

  Definition parses (name : str) (is_class : bool) (refs : list cls) (ps : list prop) : Prop :=
    (forall vs, library (go_from name) vs = None) /\ find (fun fn => str_eqb (gf_name fn) (go_from name)) functions = Some (parse_composite_code G name is_class refs ps).
  Lemma zero_fields_lookup ps p : In p ps -> NoDup (map (fun p => field (p_name p)) ps) -> lookup (field (p_name p)) (zero_fields X ps) = Some (zero_field X p).
  Proof.
    intros Hi Hnd. unfold zero_fields. induction ps as [|q ps IH]; [destruct Hi|]. inversion Hnd as [|? ? Hq Hnd']; subst. cbn [map lookup fst snd]. destruct Hi as [->|Hi]; [now rewrite str_eqb_refl|].
    destruct (str_eqb (field (p_name p)) (field (p_name q))) eqn:E; [|now apply IH]. apply str_eqb_eq in E. exfalso. apply Hq. rewrite <- E. now apply (in_map (fun p => field (p_name p))).
  Qed.

  Lemma composite_called name is_class refs ps v w id reft a path H cv ws es : parses name is_class refs ps ->
    (match v with JObj l => Forall (fun kj => value_runs (snd kj)) l | _ => True end) -> json v w -> keeps M H0 H -> In a M \/ length H0 <= a -> a <> ec -> errors_at H es ->
    nth_error H a = Some cv -> part path cv = Some (RStruct ws) -> NoDup (map (fun p => field (p_name p)) ps) -> NoDup (map c_name refs) ->
    Forall (fun p => usable (fun c => In c refs) (p_type p)) ps -> (forall p, In p ps -> exists w0, lookup (field (p_name p)) ws = Some w0 /\ fresh_field p w0) ->
    (is_class = true -> (exists i, lookup (s_ "ID") ws = Some i) /\ ~ In (s_ "ID") (map (fun p => field (p_name p)) ps)) ->
    let args := w :: (if is_class then [RStr id] else []) ++ map mv refs ++ [RStr reft; RPointer (a, path); RPointer (ec, [])] in
    match go_composite X ps v (match v with JObj l => map (fun kv => (fst kv, go_value X G in_turn R (snd kv))) l | _ => [] end) reft (zero_fields X ps) es with
    | Panic _ => ev (fun n => called n (go_from name) args) H Panicked
    | Done (fields, es') => exists H' cv' ws', keeps [a; ec] H H' /\ errors_at H' es' /\ nth_error H' a = Some cv' /\ with_part path (RStruct ws') cv = Some cv' /\
        (forall g, ~ In g (map (fun p => field (p_name p)) ps) -> g <> s_ "ID" \/ is_class = false -> lookup g ws' = lookup g ws) /\
        (go_empty es' = true -> is_class = true -> lookup (s_ "ID") ws' = Some (RStr id)) /\
        (go_empty es' = true -> forall p, In p ps -> exists w v, lookup (field (p_name p)) ws' = Some w /\ lookup (field (p_name p)) fields = Some v /\ held_property H' (length H) p w v) /\
        ev (fun n => called n (go_from name) args) H (Out ([], H'))
    end.
  Proof.
    intros [Hlib Hfind] HIH Hj KM HaM Hne He Ea Epart Hnd Hndr Hus Hfr Hid args.
    set (pvs := (Own "value", w) :: (if is_class then [(Own "id", RStr id : val)] else []) ++ map (fun c => (For "registry" (c_name c), mv c)) refs ++
      [(Own "ref", RStr reft); (Own "target", RPointer (a, path)); (Own "errors", RPointer (ec, []))]).
    assert (Eargs : args = map snd pvs).
    { unfold args, pvs. cbn [map snd]. rewrite !map_app, map_map. destruct is_class; reflexivity. }
    assert (Eparams : map fst (gf_params (parse_composite_code G name is_class refs ps)) = map fst pvs).
    { unfold pvs, parse_composite_code. cbn [gf_params app map fst]. rewrite !map_app, !map_map. destruct is_class; reflexivity. }
    assert (Hndp : NoDup (map fst pvs)).
    { rewrite <- Eparams. unfold parse_composite_code. cbn [gf_params app map fst]. rewrite !map_app, map_map. cbn [map fst].
      assert (Hfor : forall x, In x (map (fun c => For "registry" (c_name c)) refs) -> exists c, x = For "registry" c) by (intros x Hx; apply in_map_iff in Hx as (c & <- & _); now exists (c_name c)).
      assert (Hr : NoDup (map (fun c => For "registry" (c_name c)) refs)).
      { rewrite <- (map_map c_name (For "registry")). apply FinFun.Injective_map_NoDup; [|exact Hndr]. intros x y E. now injection E. }
      assert (Htail : NoDup (map (fun c => For "registry" (c_name c)) refs ++ [Own "ref"; Own "target"; Own "errors"])).
      { apply NoDup_app_disjoint; [exact Hr|repeat constructor; cbn; intuition discriminate|]. intros x Hx. apply Hfor in Hx as (c & ->). cbn. intuition discriminate. }
      assert (Hown : forall s, ~ In s ["ref"; "target"; "errors"]%string -> ~ In (Own s) (map (fun c => For "registry" (c_name c)) refs ++ [Own "ref"; Own "target"; Own "errors"])).
      { intros s Hs Hi. apply in_app_or in Hi as [Hi|Hi]; [apply Hfor in Hi as (c & E); discriminate|]. apply Hs. cbn in Hi |- *. destruct Hi as [E|[E|[E|[]]]]; injection E as <-; tauto. }
      destruct is_class; cbn [app map fst].
      - constructor; [intros [E|Hi]; [discriminate|revert Hi; apply Hown; cbn; intuition discriminate]|]. constructor; [apply Hown; cbn; intuition discriminate|exact Htail].
      - constructor; [apply Hown; cbn; intuition discriminate|exact Htail]. }
    set (r0 := bound (map fst pvs) (length H) []). set (Hb := H ++ map snd pvs).
    assert (Hcell : forall x u, In (x, u) pvs -> exists k, cell_of r0 x = Some k /\ length H <= k /\ nth_error Hb k = Some u).
    { intros x u Hi. apply In_nth_error in Hi as [i Ei]. destruct (bound_value (map fst pvs) (map snd pvs) H i x u Hndp) as [B1 B2]; [now rewrite nth_error_map, Ei|now rewrite nth_error_map, Ei|].
      exists (length H + i). split; [exact B1|]. split; [lia|exact B2]. }
    assert (KHb : forall W, keeps W H Hb) by (intros W; split; [unfold Hb; rewrite app_length; lia|]; intros q u Eq _; now apply nth_app_l).
    assert (Hal := nth_some_lt _ _ _ Ea). assert (Lec : ec < length H) by (destruct He as (? & E & _); now apply nth_some_lt in E).
    assert (Heb : errors_at Hb es) by (apply (errors_keeps [] H); [apply KHb|intros []|exact He]).
    destruct (Hcell (Own "value") w) as (k1 & C1 & B1 & V1); [now left|].
    assert (Hin : forall x u, In (x, u) [(Own "ref", RStr reft : val); (Own "target", RPointer (a, path)); (Own "errors", RPointer (ec, []))] -> In (x, u) pvs).
    { intros x u Hi. right. apply in_or_app. right. apply in_or_app. now right. }
    destruct (Hcell (Own "ref") (RStr reft)) as (k4 & C4 & B4 & V4); [apply Hin; now left|].
    destruct (Hcell (Own "target") (RPointer (a, path))) as (k2 & C2 & B2 & V2); [apply Hin; right; now left|].
    destruct (Hcell (Own "errors") (RPointer (ec, []))) as (k3 & C3 & B3 & V3); [apply Hin; right; right; now left|].
    assert (Hcall : forall o, runs r0 Hb (gf_body (parse_composite_code G name is_class refs ps)) o -> o <> Stuck ->
      ev (fun n => called n (go_from name) args) H (match o with Out (_, H') => Out ([], H') | Panicked => Panicked | Stuck => Stuck end)).
    { intros o Ho Hs. rewrite Eargs. apply (call_runs (go_from name) _ (map snd pvs) H o Hlib Hfind); [reflexivity| | |exact Hs].
      - rewrite map_length. rewrite <- (map_length fst (gf_params _)), Eparams. now rewrite map_length.
      - rewrite Eparams. exact Ho. }
    cbn [parse_composite_code gf_body] in Hcall.
    set (cast := match ps with [] => None | _ => Some (Own "cast") end) in *.
    assert (Hpre := preconditions_run v w reft a path es r0 Hb cast k1 k2 k3 k4 ltac:(unfold cast; destruct ps; tauto) Hj Heb C1 V1 C2 V2 C3 V3 C4 V4).
    unfold go_composite. destruct (negb (go_empty es)).
    { apply (Hcall Panicked); [apply Hpre|discriminate]. }
    destruct (match v with JObj l => Some l | _ => None end) as [l|] eqn:Ev.
    2: { assert (Hno : exists H', keeps [ec] Hb H' /\ errors_at H' (gadd reft (GExpectedType (s_ "a map[string]interface{}") (gtype_of v)) es) /\ forall rest, runs r0 Hb (preconditions cast ++ rest) (Out (Return, H'))) by (destruct v; try discriminate; exact Hpre).
         clear Hpre. destruct Hno as (H' & K' & He' & Hrun).
         assert (Hgo : exists H' cv' ws', keeps [a; ec] H H' /\ errors_at H' (gadd reft (GExpectedType (s_ "a map[string]interface{}") (gtype_of v)) es) /\ nth_error H' a = Some cv' /\ with_part path (RStruct ws') cv = Some cv' /\
           (forall g, ~ In g (map (fun p => field (p_name p)) ps) -> g <> s_ "ID" \/ is_class = false -> lookup g ws' = lookup g ws) /\ ev (fun n => called n (go_from name) args) H (Out ([], H'))).
         { exists H', cv, ws. split; [apply (keeps_trans _ _ Hb); [apply KHb|revert K'; apply keeps_more; intros q [<-|[]]; right; now left]|]. split; [exact He'|].
           split; [apply K'; [now apply nth_app_l|intros [E|[]]; now apply Hne]|]. split; [now apply put_same|]. split; [reflexivity|]. apply (Hcall (Out (Return, H'))); [apply Hrun|discriminate]. }
         destruct Hgo as (H2 & cv' & ws' & G1 & G2 & G3 & G4 & G5 & G6).
         assert (Hnot : go_empty (gadd reft (GExpectedType (s_ "a map[string]interface{}") (gtype_of v)) es) = false) by apply not_empty.
         destruct v; try discriminate; (exists H2, cv', ws'; repeat (split; [assumption|]); split; [rewrite Hnot; discriminate|]; split; [rewrite Hnot; discriminate|]; exact G6). }
    assert (E : v = JObj l) by (destruct v; congruence). subst v. clear Ev.
    set (r1 := match cast with Some x => (Own "ok", S (length Hb)) :: (x, length Hb) :: r0 | None => (Own "ok", length Hb) :: r0 end).
    set (H1 := match cast with Some _ => Hb ++ [w; RBool true] | None => Hb ++ [RBool true : val] end).
    assert (Hgo : forall rest o, runs r1 H1 rest o -> runs r0 Hb (preconditions cast ++ rest) o) by (intros rest o Ho; apply Hpre; unfold r1, H1 in Ho; destruct cast; exact Ho). clear Hpre.
    assert (K1 : forall W, keeps W Hb H1) by (intros W; unfold H1; destruct cast; [apply keeps_two|apply keeps_app]).
    assert (Hvar : forall x u, In (x, u) pvs -> exists k, cell_of r1 x = Some k /\ length H <= k /\ nth_error H1 k = Some u).
    { intros x u Hi. destruct (Hcell x u Hi) as (k & D1 & D2 & D3). exists k. split; [|split; [exact D2|apply (K1 []); [exact D3|intros []]]].
      assert (Hx : x <> Own "ok" /\ x <> Own "cast").
      { clear - Hi. unfold pvs in Hi. cbn [In] in Hi. destruct Hi as [E|Hi]; [injection E as <- <-; split; discriminate|]. apply in_app_or in Hi as [Hi|Hi].
        - destruct is_class; [|destruct Hi]. destruct Hi as [E|[]]. injection E as <- <-. split; discriminate.
        - apply in_app_or in Hi as [Hi|Hi]; [apply in_map_iff in Hi as (c & E & _); injection E as <- <-; split; discriminate|].
          cbn in Hi. destruct Hi as [E|[E|[E|[]]]]; injection E as <- <-; split; discriminate. }
      unfold r1. assert (Ecast : cast = None \/ cast = Some (Own "cast")) by (unfold cast; destruct ps; tauto). destruct Ecast as [-> | ->]; (rewrite cell_before by apply Hx); [exact D1|rewrite cell_before by apply Hx; exact D1]. }
    (* the identifier *)
    assert (Hset : exists Hp cvp wsp, keeps [a] H1 Hp /\ nth_error Hp a = Some cvp /\ with_part path (RStruct wsp) cv = Some cvp /\ (forall g, g <> s_ "ID" \/ is_class = false -> lookup g wsp = lookup g ws) /\
       (is_class = true -> lookup (s_ "ID") wsp = Some (RStr id)) /\
       forall rest o, runs r1 Hp rest o -> runs r1 H1 ((if is_class then [SAssign [XField (ow "target") (s_ "ID")] (ow "id")] else []) ++ rest) o).
    { assert (Ea1 : nth_error H1 a = Some cv) by (apply (K1 []); [now apply nth_app_l|intros []]). destruct is_class.
      - destruct (Hid eq_refl) as ((i & Ei) & _). destruct (put_exists (path ++ [AtField (s_ "ID")]) cv i) as [put Hput]; [rewrite (part_app _ _ _ _ Epart); cbn [part]; now rewrite Ei|].
        destruct (Hvar (Own "id") (RStr id)) as (q1 & Q1 & _ & Q2); [right; now left|]. destruct (Hvar (Own "target") (RPointer (a, path))) as (q2 & Q3 & _ & Q4); [apply Hin; right; now left|].
        exists (replace a (put (RStr id)) H1), (put (RStr id)), (upsert (s_ "ID") (RStr id) ws).
        split; [apply keeps_replace; [left; now left|apply keeps_refl]|]. split; [apply nth_replace_same; apply nth_some_lt in Ea1; exact Ea1|].
        split; [rewrite <- (put_field _ _ _ _ _ Epart); [apply Hput|now exists i]|]. split; [intros g [Hg|Hg]; [|discriminate]; apply lookup_upsert_neq; congruence|]. split; [intros _; apply lookup_upsert_eq|].
        intros rest o Ho. cbn [app]. rule run_assign; [rule eval_var; [exact Q1|exact Q2]| |exact Ho].
        change (replace a (put (RStr id)) H1) with (replace (fst (a, path ++ [AtField (s_ "ID")])) (put (RStr id)) H1).
        assert (Et : evals r1 H1 (ow "target") (Out (RPointer (a, path), H1))) by (rule eval_var; [exact Q3|exact Q4]).
        rule assign_place; [exact I|exact (place_field_pointer X printed go_dur_from duration_to structs functions globals r1 H1 H1 (ow "target") (s_ "ID") (a, path) Et)|exact Ea1|apply Hput].
      - exists H1, cv, ws. split; [apply keeps_refl|]. split; [exact Ea1|]. split; [now apply put_same|]. split; [reflexivity|]. split; [discriminate|]. intros rest o Ho. exact Ho. }
    destruct Hset as (Hp & cvp & wsp & Kp & Eap & Epp & Hop & Hidp & Hrunp).
    assert (KH1 : forall W, keeps W H H1) by (intros W; apply (keeps_trans _ _ Hb); [apply KHb|apply K1]).
    assert (KHp : keeps [a; ec] H Hp) by (apply (keeps_M' _ [a] _ _ _ (KH1 _) Kp); intros q [<-|[]]; left; now left).
    assert (Hep : errors_at Hp es) by (apply (errors_keeps [a] H1); [exact Kp|intros [E|[]]; now apply Hne|]; apply (errors_keeps [] Hb); [apply K1|intros []|exact Heb]).
    assert (Epartp : part path cvp = Some (RStruct wsp)) by (now apply (part_put _ _ _ _ Epp)).
    assert (Hfp : forall p, In p ps -> lookup (field (p_name p)) wsp = lookup (field (p_name p)) ws).
    { intros p Hp'. apply Hop. destruct is_class eqn:Eis; [left|now right]. intros E. apply (proj2 (Hid eq_refl)). rewrite <- E. now apply (in_map (fun p => field (p_name p))). }
    apply json_obj in Hj as (b & wsall & Ew & Hbm & Eb & Hndl & HF).
    assert (HP : match go_properties X ps (map (fun kv => (fst kv, go_value X G in_turn R (snd kv))) l) reft (zero_fields X ps) es with
      | Panic _ => forall rest, runs r1 Hp (parse_properties_code G (fun c => XVar (For "registry" (c_name c))) ps 0 ++ rest) Panicked
      | Done (fields', es') => exists H' cv' ws', keeps [a; ec] Hp H' /\ errors_at H' es' /\ nth_error H' a = Some cv' /\ with_part path (RStruct ws') cvp = Some cv' /\
          (forall g, ~ In g (map (fun p => field (p_name p)) ps) -> lookup g ws' = lookup g wsp) /\
          (go_empty es' = true -> forall p, In p ps -> exists w v, lookup (field (p_name p)) ws' = Some w /\ lookup (field (p_name p)) fields' = Some v /\ held_property H' (length Hp) p w v) /\
          runs r1 Hp (parse_properties_code G (fun c => XVar (For "registry" (c_name c))) ps 0 ++ [SReturn]) (Out (Return, H'))
      end).
    { assert (Hps : ps = [] \/ cast = Some (Own "cast")) by (unfold cast; destruct ps; tauto). destruct Hps as [Eps|Ecast].
      { rewrite Eps. cbn. exists Hp, cvp, wsp. split; [apply keeps_refl|]. split; [exact Hep|]. split; [exact Eap|]. split; [now apply put_same|]. split; [reflexivity|]. split; [intros _ ? []|rule run_return]. }
      assert (Hcast : cell_of r1 (Own "cast") = Some (length Hb) /\ nth_error H1 (length Hb) = Some w).
      { unfold r1, H1. rewrite Ecast. split; [rewrite cell_before by discriminate; apply cell_here|]. rewrite nth_error_app2 by lia. now rewrite Nat.sub_diag. }
      assert (LHb : length H <= length Hb) by (now destruct (KHb [])).
      apply (properties_run (fun c => XVar (For "registry" (c_name c))) (fun c => In c refs) reft l b wsall Hbm Eb HF HIH a path HaM Hne ps r1 Hp wsp
        (keeps_M _ _ [a] (keeps_M _ _ [] KM (KH1 []) ltac:(intros ? [])) Kp ltac:(intros q [<-|[]]; exact HaM))) with (cv := cvp) (ws := wsp); try assumption.
      - intros r' H' ws' G' (K' & _).
        assert (Hkeep : forall x k u, stable 0 x -> cell_of r1 x = Some k -> length H <= k -> nth_error H1 k = Some u -> evals r' H' (XVar x) (Out (u, H'))).
        { intros x k u Hs D1 D2 D3. rule eval_var; [apply (grows_cell 0 r1); [exact Hs|exact D1|exact G']|]. apply K'; [|intros [E|[E|[]]]; lia]. apply Kp; [exact D3|intros [E|[]]; lia]. }
        destruct (Hvar (Own "errors") (RPointer (ec, []))) as (q1 & Q1 & Q2 & Q3); [apply Hin; right; right; now left|].
        destruct (Hvar (Own "target") (RPointer (a, path))) as (q4 & Q4 & Q5 & Q6); [apply Hin; right; now left|].
        destruct (Hvar (Own "ref") (RStr reft)) as (q7 & Q7 & Q8 & Q9); [apply Hin; now left|].
        split; [apply (Hkeep _ q1); [apply stable_own|assumption..]|]. split; [rewrite <- Ew; apply (Hkeep _ (length Hb)); [apply stable_own|apply Hcast|exact LHb|apply Hcast]|].
        split; [apply (Hkeep _ q4); [apply stable_own|assumption..]|]. split; [apply (Hkeep _ q7); [apply stable_own|assumption..]|].
        intros c Hc. destruct (Hvar (For "registry" (c_name c)) (mv c)) as (k & D1 & D2 & D3); [|apply (Hkeep _ k); [apply stable_for|assumption..]].
        right. apply in_or_app. right. apply in_or_app. left. now apply (in_map (fun c => (For "registry" (c_name c), mv c))).
      - apply incl_refl.
      - apply grows_refl.
      - split; [apply keeps_refl|]. split; [now exists cvp|reflexivity].
      - intros p Hi. split; [rewrite (Hfp p Hi); now apply Hfr|now apply zero_fields_lookup]. }
    destruct (go_properties X ps _ reft (zero_fields X ps) es) as [[fields es']|].
    - destruct HP as (H' & cv' & ws' & KP & HeP & EaP & EpP & HoP & HhP & HrP). exists H', cv', ws'.
      split; [apply (keeps_trans _ _ Hp); assumption|]. split; [exact HeP|]. split; [exact EaP|]. split; [rewrite <- EpP; symmetry; apply (put_put _ _ _ _ _ Epp)|].
      split; [intros g G1 G2; rewrite (HoP g G1); now apply Hop|]. split; [intros _ Eis; rewrite HoP; [now apply Hidp|apply (proj2 (Hid Eis))]|].
      split; [|apply (Hcall (Out (Return, H'))); [apply Hgo; apply Hrunp; exact HrP|discriminate]].
      intros Hem p Hi. destruct (HhP Hem p Hi) as (w1 & v1 & L1 & L2 & Hh). exists w1, v1. split; [exact L1|]. split; [exact L2|].
      apply (held_property_keeps [] H' _ (length Hp)); [apply keeps_refl|intros ? []| |exact Hh]. now destruct KHp.
    - apply (Hcall Panicked); [|discriminate]. apply Hgo. apply Hrunp. apply HP.
  Qed.

  (** * All values *)
  Hypothesis Hembeds : forall n e, find_embed G n = Some e -> parses n false (embed_references G n) (e_props e) /\ NoDup (map (fun p => field (p_name p)) (e_props e)) /\
    NoDup (map c_name (embed_references G n)) /\ Forall (fun p => usable (fun c => In c (embed_references G n)) (p_type p)) (e_props e).
  Lemma embed_runs v m w registry avail value tg ref parts n code n' r H a v0 put es reft : (match v with JObj l => Forall (fun kj => value_runs (snd kj)) l | _ => True end) ->
    json v w -> usable avail (TEmbed m) -> parse_code G registry (TEmbed m) value tg ref n = (code, n') -> keeps M H0 H -> In a M \/ length H0 <= a -> a <> ec ->
    errors_at H es -> nth_error H a = Some v0 -> parts <> [] -> join (s_ "/") parts = reft -> lasting n r H (context registry avail value w tg a put ref parts) -> target_place tg a v0 put (TEmbed m) n r H ->
    comes n r H a v0 put (TEmbed m) code (length H)
      ((gdo fields <- go_composite X (match find_embed G m with Some e => e_props e | None => [] end) v (match v with JObj l => map (fun kv => (fst kv, go_value X G in_turn R (snd kv))) l | _ => [] end) reft
          (zero_fields X (match find_embed G m with Some e => e_props e | None => [] end)); gret (GStruct fields)) es).
  Proof.
    intros HIH Hj ((e & Ef) & Hav) Hcode KM HaM Hne He Ea Hparts Hreft HL Hplace. rewrite Ef. cbn [parse_code] in Hcode. injection Hcode as <- <-.
    destruct (Hplace m eq_refl) as (path & s & Hpl & Epart & Hsh & Hput). inversion Hsh as [t u Hno|m' e' ws Ef' Hfr]; subst; [now destruct (Hno m)|]. rewrite Ef in Ef'. injection Ef' as <-.
    destruct (Hembeds m e Ef) as (Hparses & Hnd & Hndr & Hus).
    destruct (lasting_here _ _ _ _ HL) as (C1 & C2 & C3 & C4 & _).
    assert (Ej := eval_joined r H ref parts C4). set (H1 := H ++ [RItems (map (@RStr _) parts)]) in *. assert (K1 : keeps [] H H1) by apply keeps_app.
    destruct (HL r H1 (grows_refl _ _) (keeps_nil _ _ _ K1)) as (_ & D2 & _).
    assert (Hargs : ev (fun k => arguments k r (value :: map registry (embed_references G m) ++ [joined ref; XAddr tg; ow "errors"])) H
      (Out (w :: map mv (embed_references G m) ++ [RStr (join (s_ "/") parts); RPointer (a, path); RPointer (ec, [])], H1))).
    { rule args_cons; [exact C1|]. rule args_more.
      2: { assert (Hall : forall l, incl l (embed_references G m) -> Forall2 (fun e v => evals r H e (Out (v, H))) (map registry l) (map mv l)).
        { induction l as [|c l IHl]; intros Hi; constructor; [apply C3; apply Hav; apply Hi; now left|apply IHl; intros x Hx; apply Hi; now right]. }
        apply Hall. apply incl_refl. }
      rule args_cons; [exact Ej|]. rule args_cons; [rule eval_addr; apply Hpl; [apply grows_refl|now apply keeps_nil]|]. rule args_cons; [exact D2|rule args_nil]. }
    assert (HC := composite_called m false (embed_references G m) (e_props e) v w [] (join (s_ "/") parts) a path H1 v0 ws es Hparses HIH Hj
      (keeps_M _ _ [] KM K1 ltac:(intros ? [])) HaM Hne ltac:(apply (errors_keeps [] H); [exact K1|intros []|exact He]) ltac:(apply K1; [exact Ea|intros []]) Epart Hnd Hndr Hus
      ltac:(intros p Hp; destruct (Hfr p Hp) as (w0 & E0 & F0); exists w0; split; [exact E0|exact F0]) ltac:(discriminate)).
    cbn zeta in HC. cbn [app] in HC. unfold gbind, gret, comes.
    destruct (go_composite X (e_props e) v _ _ _ es) as [[fields es']|].
    - destruct HC as (H' & cv' & ws' & K' & He' & Ea' & Ep' & _ & _ & Hh & Hcall).
      assert (Ecv : cv' = put (RStruct ws')) by (rewrite Hput in Ep'; now injection Ep' as <-). assert (L1 : length H <= length H1) by (now destruct K1).
      exists r, H', cv'. split; [apply grows_refl|]. split; [apply (keeps_trans _ _ H1); [now apply keeps_nil|exact K']|]. split; [exact He'|]. split; [exact Ea'|]. split; [right; now exists (RStruct ws')|].
      split; [|intros rest o Ho; cbn [app]; rule run_call; [exact Hargs|exact Hcall|exact Ho]].
      intros Hem. exists (RStruct ws'). split; [exact Ecv|]. apply held_embed with (e := e); [exact Ef|]. intros p Hp. destruct (Hh Hem p Hp) as (w1 & v1 & L2 & L3 & Hhp). exists w1, v1.
      split; [exact L2|]. split; [exact L3|]. apply (held_property_keeps [] H' _ (length H1)); [apply keeps_refl|intros ? []|exact L1|exact Hhp].
    - intros rest. cbn [app]. rule run_call_panics; [exact Hargs|exact HC].
  Qed.

  Lemma value_step v : (match v with JArr l => Forall value_runs l | JObj l => Forall (fun kj => value_runs (snd kj)) l | _ => True end) -> value_runs v.
  Proof.
    intros HIH t w registry avail value tg ref parts n code n' r H a v0 put es reft Hj Hu Hcode KM HaM Hne He Ea Hparts Hreft HL Hplace.
    destruct t as [|b|b|p|p|f|f|f| | |ty mn mx|ty|m|m].
    11: { (* arrays *)
      destruct (match v with JArr l => Some l | _ => None end) as [l|] eqn:Ev.
      - assert (E : v = JArr l) by (destruct v; congruence). subst v. cbn [go_value]. eapply array_runs; eassumption.
      - assert (E : go_value X G in_turn R v (TArray ty mn mx) reft es = Done (GNil, gadd reft (GExpectedType (s_ "a []interface{}") (gtype_of v)) es)) by (destruct v; try discriminate; reflexivity).
        rewrite E. cbn [parse_code] in Hcode. destruct (parse_code G registry ty _ _ _ (S n)) as [item n2]. injection Hcode as <- <-. rewrite <- Hreft.
        eapply (parse_as_fails registry avail value tg w a put ref parts n _ v0 Hne) with (z := RNil);
          [stem|exact HL|exact He|exact Ea|eapply wrong_type; [exact Hj|destruct v; try exact I; discriminate]|apply zero_simple; reflexivity|eapply says_type; [exact (json_kind _ _ _ _ Hj)|reflexivity]]. }
    11: { (* maps *)
      destruct (match v with JObj l => Some l | _ => None end) as [l|] eqn:Ev.
      - assert (E : v = JObj l) by (destruct v; congruence). subst v. cbn [go_value]. eapply map_runs; eassumption.
      - assert (E : go_value X G in_turn R v (TMap ty) reft es = Done (GNil, gadd reft (GExpectedType (s_ "a map[string]interface{}") (gtype_of v)) es)) by (destruct v; try discriminate; reflexivity).
        rewrite E. cbn [parse_code] in Hcode. destruct (parse_code G registry ty _ _ _ (S n)) as [item n2]. injection Hcode as <- <-. rewrite <- Hreft.
        eapply (parse_as_fails registry avail value tg w a put ref parts n _ v0 Hne) with (z := RNil);
          [stem|exact HL|exact He|exact Ea|eapply wrong_type; [exact Hj|destruct v; try exact I; discriminate]|apply zero_simple; reflexivity|eapply says_type; [exact (json_kind _ _ _ _ Hj)|reflexivity]]. }
    12: { (* embeddable structures *)
      assert (HE := embed_runs v m w registry avail value tg ref parts n code n' r H a v0 put es reft ltac:(destruct v; try exact I; exact HIH) Hj Hu Hcode KM HaM Hne He Ea Hparts Hreft HL Hplace).
      destruct Hu as ((e & Ef) & _). rewrite Ef in HE. replace (go_value X G in_turn R v (TEmbed m) reft es) with ((gdo fields <- go_composite X (e_props e) v
        (match v with JObj l => map (fun kv => (fst kv, go_value X G in_turn R (snd kv))) l | _ => [] end) reft (zero_fields X (e_props e)); gret (GStruct fields)) es); [exact HE|].
      destruct v; cbn [go_value]; rewrite Ef; reflexivity. }
    all: assert (Ecode := f_equal fst Hcode); cbn [fst] in Ecode; rewrite <- Ecode, <- Hreft.
    - replace (go_value X G in_turn R v TBool (join (s_ "/") parts) es) with (go_boolean X v (join (s_ "/") parts) es) by (destruct v; reflexivity). eapply bool_runs; eassumption.
    - replace (go_value X G in_turn R v (TInt b) (join (s_ "/") parts) es) with (go_integer X b v (join (s_ "/") parts) es) by (destruct v; reflexivity). eapply int_runs; eassumption.
    - replace (go_value X G in_turn R v (TFloat b) (join (s_ "/") parts) es) with (go_float X b v (join (s_ "/") parts) es) by (destruct v; reflexivity). eapply float_runs; eassumption.
    - replace (go_value X G in_turn R v (TStr p) (join (s_ "/") parts) es) with (go_string X p v (join (s_ "/") parts) es) by (destruct v; reflexivity). eapply str_runs; try eassumption. now left.
    - replace (go_value X G in_turn R v (TPath p) (join (s_ "/") parts) es) with (go_string X p v (join (s_ "/") parts) es) by (destruct v; reflexivity). eapply str_runs; try eassumption. now right.
    - replace (go_value X G in_turn R v (TDate f) (join (s_ "/") parts) es) with (go_date_time X f v (join (s_ "/") parts) es) by (destruct v; reflexivity). eapply time_runs; try eassumption. now left.
    - replace (go_value X G in_turn R v (TTime f) (join (s_ "/") parts) es) with (go_date_time X f v (join (s_ "/") parts) es) by (destruct v; reflexivity). eapply time_runs; try eassumption. right. now left.
    - replace (go_value X G in_turn R v (TDatetime f) (join (s_ "/") parts) es) with (go_date_time X f v (join (s_ "/") parts) es) by (destruct v; reflexivity). eapply time_runs; try eassumption. right. now right.
    - replace (go_value X G in_turn R v TTimeZone (join (s_ "/") parts) es) with (go_time_zone X v (join (s_ "/") parts) es) by (destruct v; reflexivity). eapply zone_runs; eassumption.
    - replace (go_value X G in_turn R v TDuration (join (s_ "/") parts) es) with (go_duration X v (join (s_ "/") parts) es) by (destruct v; reflexivity). eapply duration_runs; eassumption.
    - replace (go_value X G in_turn R v (TClass m) (join (s_ "/") parts) es) with (go_reference X G R m v (join (s_ "/") parts) es) by (destruct v; reflexivity). eapply ref_runs; eassumption.
  Qed.

  Theorem value_runs_all : forall v, value_runs v.
  Proof. induction v as [| | | | |l IH|l IH] using jval_ind'; apply value_step; try exact I; exact IH. Qed.
End Parsers.
