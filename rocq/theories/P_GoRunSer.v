(** Running the generated Go serializers. *)
From Coq Require Import String List Arith NArith ZArith Bool Lia Floats.SpecFloat.
From Verif Require Import Base M_Naming M_Schema M_Dec M_Strftime M_Duration M_GoGen M_AutoID S_Scope M_Scope M_GoScope P_Common P_AutoID P_Scope P_BlockScope P_GoScope P_GoSer
  S_Compare S_GoTyping M_GoTyping P_GoTyping.
From Verif Require Import S_GoRun S_GoMemory P_GoRun.
Import ListNotations.
Open Scope list_scope.
Local Open Scope nat_scope.

Section Serializers.
  Variable X : gext.
  Variable printed : str -> list (rv (g_time X)) -> str.
  Variable duration_from : str -> option Z.
  Variable structs : list (str * list (str * gtype)).
  Variable functions : list gfunction.
  Variable globals : list (str * str).
  Variable G : graph.
  Notation val := (rv (g_time X)).
  Notation gval := (goval (g_time X)).
  Notation mem := (memory X).
  Notation eval := (eval X printed duration_from go_dur_to structs functions globals).
  Notation place_of := (place_of X printed duration_from go_dur_to structs functions globals).
  Notation arguments := (arguments X printed duration_from go_dur_to structs functions globals).
  Notation called := (S_GoRun.call X printed duration_from go_dur_to structs functions globals).
  Notation assign := (assign X printed duration_from go_dur_to structs functions globals).
  Notation exec := (exec X printed duration_from go_dur_to structs functions globals).
  Notation ranging := (ranging X printed duration_from go_dur_to structs functions globals).
  Notation looping := (looping X printed duration_from go_dur_to structs functions globals).
  Notation library := (library X printed duration_from go_dur_to).
  Notation ev := (ev X).
  Notation evals r H e o := (ev (fun n => eval n r e) H o).
  Notation places r H e o := (ev (fun n => place_of n r e) H o).
  Notation runs r H ss o := (ev (fun n => exec n r ss) H o).

  (** The serializers of the package *)
  Definition serializes (name : str) (ps : list prop) : Prop :=
    (forall vs, library (go_to name) vs = None) /\ find (fun f => str_eqb (gf_name f) (go_to name)) functions = Some (serializer_code name ps).
  Hypothesis Hembeds : forall n e, find_embed G n = Some e -> serializes n (e_props e).

  (** The graph as given *)
  Variable heap : list (gobj (g_time X)).
  Variable inst : addr -> nat.
  Variable H0 : mem.
  Notation shown := (shown X G heap inst H0).
  Notation shown_property := (shown_property X G heap inst H0).
  Notation shown_fields := (shown_fields X G heap inst H0).
  Notation ser := (go_ser_value X G heap).

  (** The expression has the value, also later. *)
  Definition value_at (r : scope) (H : mem) (e : gexpr) (w : val) : Prop :=
    evals r H e (Out (w, H)) /\ (forall ws, w = RStruct ws -> exists l, places r H e (Out (l, H)) /\ at_place X H l = Some w).
  Definition lasting (n : nat) (r : scope) (H : mem) (P : scope -> mem -> Prop) : Prop := forall r' H', grows n r r' -> keeps [] H H' -> P r' H'.

  (** What running the code of a value comes to: [put u] is what is then in the cell [a]. *)
  Definition value_runs (v : gval) : Prop := forall t w value target n code n' r H a put,
    shown t w v -> serialize_code t value target n = (code, n') -> keeps [] H0 H ->
    lasting n r H (fun r' H' => value_at r' H' value w) ->
    lasting n r H (fun r' H' => forall u, ev (fun n => assign n r' target u) H' (Out (tt, replace a (put u) H'))) ->
    match ser v t with
    | SOk j => exists r' H' u, grows n r r' /\ keeps [] H H' /\ reads H' (length H) j u /\
        forall rest o, runs r' (replace a (put u) H') rest o -> runs r H (code ++ rest) o
    | SFail _ => forall rest, runs r H (code ++ rest) Panicked
    end.

  Lemma lasting_here n r H P : lasting n r H P -> P r H.
  Proof. intros HL. apply HL; [apply grows_refl|apply keeps_refl]. Qed.
  Lemma keeps_at l (H H' : mem) v : keeps [] H H' -> at_place X H l = Some v -> at_place X H' l = Some v.
  Proof.
    intros K E. unfold at_place in *. destruct (nth_error H (fst l)) as [u|] eqn:Eu; [|discriminate]. now rewrite (keeps_nth _ _ _ _ K Eu).
  Qed.
  Lemma keeps_but W l (H H' : mem) v : keeps W H H' -> ~ In (fst l) W -> at_place X H l = Some v -> at_place X H' l = Some v.
  Proof.
    intros K Hl E. unfold at_place in *. destruct (nth_error H (fst l)) as [u|] eqn:Eu; [|discriminate]. destruct K as [_ K]. now rewrite (K _ _ Eu Hl).
  Qed.

  (** The value is assigned as it is, after it is evaluated. *)
  Lemma atom_runs r H target e u j a put n : evals r H e (Out (u, H)) -> reads H (length H) j u ->
    lasting n r H (fun r' H' => forall u, ev (fun n => assign n r' target u) H' (Out (tt, replace a (put u) H'))) ->
    exists r' H' u, grows n r r' /\ keeps [] H H' /\ reads H' (length H) j u /\
        forall rest o, runs r' (replace a (put u) H') rest o -> runs r H ([SAssign [target] e] ++ rest) o.
  Proof.
    intros E1 E2 Ht. exists r, H, u. split; [apply grows_refl|]. split; [apply keeps_refl|]. split; [exact E2|]. intros rest o HR. cbn [app].
    eapply run_assign; [exact E1|exact (lasting_here _ _ _ _ Ht u)|exact HR].
  Qed.

  (** * Properties *)

  (** The body of a serializer: [m] is the cell of the object which is filled, and the place [l] that of the instance. *)
  Definition in_body (H1 : mem) (l : place) (ws : list (str * val)) (tc m : nat) (r : scope) (H : mem) : Prop :=
    keeps [] H0 H1 /\ keeps [m] H1 H /\ m < length H1 /\ length H0 <= m /\ fst l <> m /\ at_place X H1 l = Some (RStruct ws) /\
    (exists ic, cell_of r (Own "instance") = Some ic /\ nth_error H1 ic = Some (RPointer l) /\ ic <> m) /\
    (cell_of r (Own "target") = Some tc /\ nth_error H1 tc = Some (RMap m) /\ tc <> m).
  Lemma in_body_later n H1 l ws tc m r H r' H' : grows n r r' -> keeps [m] H H' -> in_body H1 l ws tc m r H -> in_body H1 l ws tc m r' H'.
  Proof.
    intros Gr K (A & B & C & D & E & F & (ic & I1 & I2 & I3) & (T1 & T2 & T3)). unfold in_body. repeat (split; [assumption|]).
    split; [now apply (keeps_trans _ H1 H H')|]. repeat (split; [assumption|]). split.
    - exists ic. split; [now apply (grows_cell n r); [apply stable_own| |]|]. now split.
    - split; [now apply (grows_cell n r); [apply stable_own| |]|]. now split.
  Qed.
  Lemma body_field H1 l ws tc m r H f w : in_body H1 l ws tc m r H -> lookup f ws = Some w -> value_at r H (XField (ow "instance") f) w.
  Proof.
    intros (A & B & C & D & E & F & (ic & I1 & I2 & I3) & _) El.
    assert (HI : evals r H (ow "instance") (Out (RPointer l, H))).
    { apply (eval_var _ _ _ _ _ _ _ _ _ _ ic); [exact I1|]. apply B; [exact I2|]. intros [<-|[]]. now apply I3. }
    assert (HP : at_place X H (fst l, snd l ++ [AtField f]) = Some w).
    { apply (keeps_but [m] _ H1); [exact B|intros [Hm|[]]; cbn [fst] in Hm; congruence|]. unfold at_place in *. cbn [fst snd].
      destruct (nth_error H1 (fst l)) as [u|]; [|discriminate]. rewrite (part_app _ _ _ _ F). cbn [part]. now rewrite El. }
    split; [now apply (eval_field_pointer _ _ _ _ _ _ _ _ _ _ _ _ l)|]. intros ws' ->. eexists. split; [apply place_field_pointer; exact HI|exact HP].
  Qed.
  Lemma body_target H1 l ws tc m r H es k u : in_body H1 l ws tc m r H -> nth_error H m = Some (REntries es) ->
    ev (fun n => assign n r (XIndex (ow "target") (XText k)) u) H (Out (tt, replace m (REntries (upsert k u es)) H)).
  Proof.
    intros (A & B & C & D & E & F & _ & (T1 & T2 & T3)) Em.
    eapply assign_map; [|apply eval_text|exact Em]. apply (eval_var _ _ _ _ _ _ _ _ _ _ tc); [exact T1|]. apply B; [exact T2|]. intros [<-|[]]. now apply T3.
  Qed.

  (** The code has put the members into the object in the cell [m]. *)
  Definition filled (n m : nat) (r : scope) (H : mem) (code : list gstmt) (js : list (str * jval)) : Prop :=
    exists r' H' es', grows n r r' /\ keeps [m] H H' /\ nth_error H' m = Some (REntries es') /\ entries_read H' (S m) js es' /\
      forall rest o, runs r' H' rest o -> runs r H (code ++ rest) o.

  Lemma property_runs p vs H1 l ws tc m n r H js es code n' :
    Forall (fun kv => value_runs (snd kv)) vs -> shown_fields [p] ws vs -> serialize_property_code p n = (code, n') ->
    in_body H1 l ws tc m r H -> nth_error H m = Some (REntries es) -> entries_read H (S m) js es ->
    match go_ser_property X p (gattributes_of X G heap vs) js with
    | SOk js' => filled n m r H code js'
    | SFail _ => forall rest, runs r H (code ++ rest) Panicked
    end.
  Proof.
    intros IH Hf Hc Hb Hm Hr. destruct (Hf p (or_introl eq_refl)) as (w & v & Ew & Ev & Hp). unfold go_ser_property, gattributes_of.
    rewrite (lookup_map_snd (fun x => (x, ser x))), Ev. cbn [option_map].
    assert (IHv : value_runs v) by (rewrite Forall_forall in IH; apply lookup_In in Ev; exact (IH _ Ev)).
    assert (HF := Hb). destruct HF as (HA & HB & HC & HD & _). assert (L : m < length H) by (now apply nth_some_lt in Hm).
    assert (K0 : keeps [] H0 H) by (apply (keeps_new [m] H0 H1 H HA); [intros a [<-|[]]; exact HD|exact HB]).
    (* the serialization of the value, if it is there *)
    assert (HV : forall value u ser_code n1 v', value_runs v' -> shown (p_type p) u v' ->
      (forall r' H', in_body H1 l ws tc m r' H' -> value_at r' H' value u) ->
      serialize_code (p_type p) value (XIndex (ow "target") (XText (p_json p))) n = (ser_code, n1) ->
      match sbind (ser v' (p_type p)) (fun x => SOk (upsert (p_json p) x js)) with
      | SOk js' => filled n m r H ser_code js'
      | SFail _ => forall rest, runs r H (ser_code ++ rest) Panicked
      end).
    { intros value u ser_code n1 v' IHv' Hs Hval Hcode.
      assert (HX := IHv' (p_type p) u value _ n ser_code n1 r H m (fun x => REntries (upsert (p_json p) x es)) Hs Hcode K0).
      assert (HY := HX ltac:(intros r' H' Gr K; apply Hval; apply (in_body_later n H1 l ws tc m r H); [exact Gr|apply (keeps_more []); [intros ? []|exact K]|exact Hb])
                       ltac:(intros r' H' Gr K x; apply (body_target H1 l ws tc);
                             [apply (in_body_later n H1 l ws tc m r H); [exact Gr|apply (keeps_more []); [intros ? []|exact K]|exact Hb]|now apply (keeps_nth H)])).
      destruct (ser v' (p_type p)) as [j|]; cbn [sbind]; [|exact HY].
      destruct HY as (r' & H' & x & Gr & K & HR & Hrun). assert (L' : m < length H') by (destruct K; lia).
      exists r', (replace m (REntries (upsert (p_json p) x es)) H'), (upsert (p_json p) x es).
      assert (KM : keeps [m] H (replace m (REntries (upsert (p_json p) x es)) H')).
      { apply keeps_replace; [left; now left|]. apply (keeps_more []); [intros ? []|exact K]. }
      split; [exact Gr|]. split; [exact KM|]. split; [now apply nth_replace_same|]. split; [|exact Hrun].
      apply (Forall2_upsert (reads _ (S m))).
      - apply (reads_keeps [m] H' _ (length H)); [apply keeps_replace; [left; now left|apply keeps_refl]|intros b [<-|[]]; exact L|lia|exact HR].
      - apply (entries_keeps [m] H _ (S m)); [exact KM|intros b [<-|[]]; lia|lia|exact Hr]. }
    (* an optional property *)
    assert (HO : forall ser_code, p_optional p = true ->
      (w = RNil -> filled n m r H [SIf (XEqual IsUnequal (XField (ow "instance") (ucamel (p_name p))) XNil) ser_code []] js) /\
      (equals X w RNil = Some false -> forall res, match res with SOk js' => filled n m r H ser_code js' | SFail _ => forall rest, runs r H (ser_code ++ rest) Panicked end ->
         match res with SOk js' => filled n m r H [SIf (XEqual IsUnequal (XField (ow "instance") (ucamel (p_name p))) XNil) ser_code []] js'
         | SFail _ => forall rest, runs r H ([SIf (XEqual IsUnequal (XField (ow "instance") (ucamel (p_name p))) XNil) ser_code []] ++ rest) Panicked end)).
    { intros ser_code Ho. assert (HFw := proj1 (body_field _ _ _ _ _ _ _ _ _ Hb Ew)). split.
      - intros ->. exists r, H, es. split; [apply grows_refl|]. split; [apply keeps_refl|]. split; [exact Hm|]. split; [exact Hr|]. intros rest o HR. cbn [app].
        eapply run_if; [eapply eval_equal; [exact HFw|apply eval_nil|reflexivity]|cbn [negb]; apply run_nil|exact HR].
      - intros Eq [js'|e] Hres.
        + destruct Hres as (r' & H' & es' & Gr & K & E1 & E2 & Hrun). exists r, H', es'. split; [apply grows_refl|]. split; [exact K|]. split; [exact E1|]. split; [exact E2|].
          intros rest o HR. cbn [app]. eapply run_if; [eapply eval_equal; [exact HFw|apply eval_nil|exact Eq]|cbn [negb]|exact HR].
          rewrite <- (app_nil_r ser_code). apply Hrun, run_nil.
        + intros rest. cbn [app]. eapply run_if_panics; [eapply eval_equal; [exact HFw|apply eval_nil|exact Eq]|]. cbn [negb]. rewrite <- (app_nil_r ser_code). apply Hres. }
    unfold serialize_property_code in Hc. destruct Hp as [p w v Ho Hs|p w v Ho Hpt Hs|p pl w v Ho Hpt Hat Hs|p Ho Hpt]; rewrite Ho in Hc |- *; cbn [andb negb] in Hc.
    - destruct (serialize_code _ _ _ n) as [ser_code n1] eqn:Ec. injection Hc as <- <-.
      assert (HG := HV _ w ser_code n1 v IHv Hs ltac:(intros r' H' Hb'; apply (body_field _ _ _ _ _ _ _ _ _ Hb' Ew)) Ec). exact HG.
    - rewrite Hpt in Hc. cbn [negb] in Hc. destruct (serialize_code _ _ _ n) as [ser_code n1] eqn:Ec. injection Hc as <- <-.
      assert (HG := HV _ w ser_code n1 v IHv Hs ltac:(intros r' H' Hb'; apply (body_field _ _ _ _ _ _ _ _ _ Hb' Ew)) Ec).
      destruct (HO ser_code Ho) as [HO1 HO2].
      assert (HN : (w = RNil /\ v = GNil) \/ (v <> GNil /\ equals X w RNil = Some false)).
      { clear - Hs Hpt. destruct Hs; cbn in Hpt; try discriminate; first [now left | right; split; [discriminate|reflexivity]]. }
      destruct HN as [[-> ->]|[Hv Eq]]; [exact (HO1 eq_refl)|].
      assert (EE : match v with GNil => SOk js | _ => sbind (ser v (p_type p)) (fun x => SOk (upsert (p_json p) x js)) end = sbind (ser v (p_type p)) (fun x => SOk (upsert (p_json p) x js))) by (destruct v; congruence).
      rewrite EE. exact (HO2 Eq _ HG).
    - rewrite Hpt in Hc. cbn [negb] in Hc. destruct (serialize_code _ _ _ n) as [ser_code n1] eqn:Ec. injection Hc as <- <-.
      assert (HG : match sbind (ser v (p_type p)) (fun x => SOk (upsert (p_json p) x js)) with
        | SOk js' => filled n m r H ser_code js' | SFail _ => forall rest, runs r H (ser_code ++ rest) Panicked end).
      { apply (HV (XDeref (XField (ow "instance") (ucamel (p_name p)))) w ser_code n1 v IHv Hs); [|exact Ec]. intros r' H' Hb'. destruct (body_field _ _ _ _ _ _ _ _ _ Hb' Ew) as [HE _].
        assert (HP : at_place X H' pl = Some w).
        { apply (keeps_at _ H0); [|exact Hat]. destruct Hb' as (A' & B' & _ & D' & _). apply (keeps_new [m] H0 H1); [exact A'|intros a [<-|[]]; exact D'|exact B']. }
        split; [now apply (eval_deref _ _ _ _ _ _ _ _ _ _ _ pl)|]. intros ws' ->. exists pl. split; [|exact HP]. eapply place_deref. exact HE. }
      destruct (HO ser_code Ho) as [_ HO2].
      assert (Hv : v <> GNil).
      { clear - Hs Hpt. destruct Hs; cbn in Hpt; try discriminate. }
      assert (EE : match v with GNil => SOk js | _ => sbind (ser v (p_type p)) (fun x => SOk (upsert (p_json p) x js)) end = sbind (ser v (p_type p)) (fun x => SOk (upsert (p_json p) x js))) by (destruct v; congruence).
      rewrite EE. exact (HO2 eq_refl _ HG).
    - rewrite Hpt in Hc. cbn [negb] in Hc. destruct (serialize_code _ _ _ n) as [ser_code n1] eqn:Ec. injection Hc as <- <-.
      exact (proj1 (HO ser_code Ho) eq_refl).
  Qed.
  Lemma properties_runs vs H1 l ws tc m (IH : Forall (fun kv => value_runs (snd kv)) vs) : forall ps n r H js es,
    shown_fields ps ws vs -> in_body H1 l ws tc m r H -> nth_error H m = Some (REntries es) -> entries_read H (S m) js es ->
    match go_ser_properties X ps (gattributes_of X G heap vs) js with
    | SOk js' => filled 0 m r H (serialize_properties_code ps n) js'
    | SFail _ => forall rest, runs r H (serialize_properties_code ps n ++ rest) Panicked
    end.
  Proof.
    induction ps as [|p ps IHp]; intros n r H js es Hf Hb Hm Hr; cbn [go_ser_properties serialize_properties_code].
    - exists r, H, es. split; [apply grows_refl|]. split; [apply keeps_refl|]. split; [exact Hm|]. split; [exact Hr|]. auto.
    - destruct (serialize_property_code p n) as [code n1] eqn:Ec.
      assert (HP := property_runs p vs H1 l ws tc m n r H js es code n1 IH ltac:(intros q [<-|[]]; apply Hf; now left) Ec Hb Hm Hr).
      destruct (go_ser_property X p (gattributes_of X G heap vs) js) as [js'|e]; cbn [sbind].
      + destruct HP as (r' & H' & es' & Gr & K & E1 & E2 & Hrun).
        assert (HQ := IHp n1 r' H' js' es' ltac:(intros q Hq; apply Hf; now right) (in_body_later n _ _ _ _ _ _ _ _ _ Gr K Hb) E1 E2).
        destruct (go_ser_properties X ps _ js') as [js2|e].
        * destruct HQ as (r2 & H2 & es2 & Gr2 & K2 & E3 & E4 & Hrun2). exists r2, H2, es2.
          split; [apply (grows_trans 0 0 r r'); [lia| |exact Gr2]|].
          { destruct Gr as (D & -> & HD). exists D. split; [reflexivity|]. eapply Forall_impl; [|exact HD]. intros q (x & E & Hx). exists x. split; [exact E|].
            apply (num_le _ 0 n); [lia|exact Hx]. }
          split; [now apply (keeps_trans _ _ H')|]. split; [exact E3|]. split; [exact E4|]. intros rest o HR. rewrite <- app_assoc. apply Hrun, Hrun2, HR.
        * intros rest. rewrite <- app_assoc. apply Hrun, HQ.
      + intros rest. rewrite <- app_assoc. apply HP.
  Qed.

  (** The start of a serializer: the instance is not nil, and the object is made. *)
  Lemma start_runs r H l ic tc rest o : cell_of r (Own "instance") = Some ic -> nth_error H ic = Some (RPointer l) ->
    cell_of r (Own "target") = Some tc -> tc < length H -> runs r (replace tc (RMap (length H)) (H ++ [REntries []])) rest o -> runs r H (serialize_start ++ rest) o.
  Proof.
    intros E1 E2 E3 Htc HR. unfold serialize_start. cbn [app].
    eapply run_if; [eapply eval_equal; [eapply eval_var; [exact E1|exact E2]|apply eval_nil|reflexivity]|cbn; apply run_nil|].
    destruct (nth_error H tc) as [u|] eqn:Eu; [|apply nth_error_None in Eu; lia].
    eapply run_assign; [apply eval_make_map|apply (assign_var _ _ _ _ _ _ _ _ _ _ tc u); [exact E3|now apply nth_app_l]|exact HR].
  Qed.

  Lemma function_runs name ps vs ws l H (IH : Forall (fun kv => value_runs (snd kv)) vs) :
    serializes name ps -> keeps [] H0 H -> at_place X H l = Some (RStruct ws) -> shown_fields ps ws vs ->
    match go_ser_properties X ps (gattributes_of X G heap vs) [] with
    | SOk js => exists H' u, keeps [] H H' /\ reads H' (length H) (JObj js) u /\ ev (fun n => called n (go_to name) [RPointer l]) H (Out ([u], H'))
    | SFail _ => ev (fun n => called n (go_to name) [RPointer l]) H Panicked
    end.
  Proof.
    intros [Hlib Hfind] K0 Hl Hf.
    set (r := [(Own "target", S (length H)); (Own "instance", length H)]).
    set (H1 := H ++ [RPointer l; RNil]).
    set (H2 := replace (S (length H)) (RMap (length H1)) (H1 ++ [REntries []])).
    assert (L1 : length H1 = S (S (length H))) by (unfold H1; rewrite app_length; cbn; lia).
    assert (L2 : length H2 = S (length H1)) by (unfold H2; rewrite length_replace, app_length; cbn; lia).
    assert (KH : keeps [] H H2).
    { unfold H2. apply keeps_replace; [right; lia|]. unfold H1. apply (keeps_trans _ _ (H ++ [RPointer l; RNil])); [|apply keeps_app].
      change [RPointer l; RNil] with ([RPointer l : val] ++ [RNil]). rewrite app_assoc. apply (keeps_trans _ _ (H ++ [RPointer l])); apply keeps_app. }
    assert (Ei : nth_error H1 (length H) = Some (RPointer l)) by (unfold H1; rewrite nth_error_app2, Nat.sub_diag by lia; reflexivity).
    assert (Eb : in_body H2 l ws (S (length H)) (length H1) r H2).
    { split; [now apply (keeps_trans _ _ H)|]. split; [apply keeps_refl|]. split; [lia|]. split; [destruct K0; lia|].
      split. { intros E. unfold at_place in Hl. destruct (nth_error H (fst l)) eqn:En; [|discriminate]. apply nth_some_lt in En. lia. }
      split; [now apply (keeps_at _ H)|]. split.
      - exists (length H). split; [reflexivity|]. split; [|lia]. unfold H2. rewrite nth_replace_other by lia. now apply nth_app_l.
      - split; [reflexivity|]. split; [|lia]. unfold H2. apply nth_replace_same. rewrite app_length. cbn. lia. }
    assert (Em : nth_error H2 (length H1) = Some (REntries [])).
    { unfold H2. rewrite nth_replace_other by lia. apply nth_app_new. }
    assert (HP := properties_runs vs H2 l ws (S (length H)) (length H1) IH ps 0 r H2 [] [] Hf Eb Em (Forall2_nil _)).
    assert (HC : forall o o', o <> Stuck -> runs r H1 (gf_body (serializer_code name ps)) o -> (match o with Out (_, H') => all_loaded X r [Own "target"] H' | Panicked => Panicked | Stuck => Stuck end) = o' ->
      ev (fun n => called n (go_to name) [RPointer l]) H o').
    { intros o o' Ho HR Eo. eapply ev_step; [intros n; cbn - [S_GoRun.exec S_GoRun.library S_GoRun.all_zero]; rewrite Hlib, Hfind; reflexivity|].
      eapply ev_bind; [apply ev_const; reflexivity|]. cbn beta. eapply ev_bind.
      { exists 1. intros [|n] Ln; [lia|]. cbn. reflexivity. }
      cbn beta. eapply ev_bind; [apply ev_const; cbn; reflexivity|]. cbn beta. eapply ev_bind; [apply ev_const; cbn; unfold done, andthen, alloc; cbn; reflexivity|]. cbn beta.
      replace ((H ++ [RPointer l]) ++ [RNil]) with H1 by (unfold H1; now rewrite <- app_assoc). rewrite app_length, Nat.add_1_r.
      destruct o as [[s H']| |].
      - eapply ev_bind; [exact HR|]. apply ev_const. exact Eo.
      - subst o'. apply ev_panic. exact HR.
      - contradiction. }
    destruct (go_ser_properties X ps _ []) as [js|e].
    - destruct HP as (r' & H' & es & Gr & K & E1 & E2 & Hrun). exists H', (RMap (length H1)).
      split; [apply (keeps_new [length H1] H H2); [exact KH|intros a [<-|[]]; lia|exact K]|]. split.
      + apply reads_obj. exists (length H1), es. split; [reflexivity|]. split; [lia|]. split; [exact E1|]. apply (entries_keeps [] H' _ (S (length H1))); [apply keeps_refl|intros ? []|lia|exact E2].
      + apply (HC (Out (Return, H'))); [discriminate|..].
        * cbn [gf_body serializer_code]. apply (start_runs r H1 l (length H) (S (length H))); [reflexivity|exact Ei|reflexivity|lia|]. apply Hrun, run_return.
        * cbn. unfold andthen, done. rewrite (load_at X H' (S (length H)) (RMap (length H1))); [reflexivity|]. destruct K as [_ K]. apply K; [|intros [E|[]]; lia].
          unfold H2. apply nth_replace_same. rewrite app_length. cbn. lia.
    - apply (HC Panicked); [discriminate| |reflexivity]. cbn [gf_body serializer_code]. apply (start_runs r H1 l (length H) (S (length H))); [reflexivity|exact Ei|reflexivity|lia|]. apply HP.
  Qed.
  (** * Arrays *)
  Lemma place_index r H e i a k l w : evals r H e (Out (RSlice a, H)) -> evals r H i (Out (RInt (Z.of_nat k), H)) -> nth_error H a = Some (RItems l) -> nth_error l k = Some w ->
    places r H (XIndex e i) (Out ((a, [AtIndex k]), H)).
  Proof.
    intros E1 E2 E3 E4. eapply ev_step; [intros n; cbn - [S_GoRun.eval]; reflexivity|]. eapply ev_bind; [exact E1|]. cbn beta. eapply ev_bind; [exact E2|]. cbn beta iota.
    apply ev_const. unfold andthen. rewrite (index_items X _ _ _ _ _ E3 E4), Nat2Z.id. reflexivity.
  Qed.

  Section Array.
    Variable t : ty.
    Variable n n2 : nat.
    Variable item : list gstmt.
    Hypothesis Hitem : serialize_code t (XIndex (vr "slice" n) (vr "i" n)) (XIndex (vr "target" n) (vr "i" n)) (S n) = (item, n2).
    Variable r : scope.
    Variable c0 : nat.
    Hypothesis Hc0 : length H0 <= c0.
    Variable sv : val.
    Variable ws : list val.
    Hypothesis Hsv : ws = [] \/ exists sa, sv = RSlice sa /\ nth_error H0 sa = Some (RItems ws).
    Notation b := (S (S c0)).
    Notation ci := (S (S (S (S c0)))).
    Notation r1 := ((num_var "i" n, ci) :: (num_var "target" n, S (S (S c0))) :: (num_var "slice" n, S c0) :: (num_var "count" n, c0) :: r).
    Notation cond := (XOrder IsLess (vr "i" n) (vr "count" n)).

    Definition loop_state (i : nat) (done : list val) (H : mem) : Prop :=
      keeps [] H0 H /\ nth_error H c0 = Some (RInt (Z.of_nat (length ws))) /\ nth_error H (S c0) = Some sv /\ nth_error H b = Some (RItems done) /\
      nth_error H (S (S (S c0))) = Some (RSlice b) /\ nth_error H ci = Some (RInt (Z.of_nat i)).
    Lemma state_keeps i done H H' : keeps [] H H' -> loop_state i done H -> loop_state i done H'.
    Proof.
      intros K (A & B & C & D & E & F). split; [now apply (keeps_trans _ _ H)|]. repeat split; now apply (keeps_nth H).
    Qed.
    Lemma loop_var k i done H r' x a v : grows (S n) r1 r' -> In (s_ x) go_stems -> cell_of r1 (num_var x n) = Some a -> k = n -> loop_state i done H -> nth_error H a = Some v ->
      evals r' H (vr x k) (Out (v, H)).
    Proof.
      intros Gr Hx Hc -> _ Ha. eapply eval_var; [|exact Ha]. apply (grows_cell (S n) r1); [apply stable_num; [exact Hx|lia]|exact Hc|exact Gr].
    Qed.

    Lemma items_loop : forall vs wr i js done H,
      Forall value_runs vs -> Forall2 (shown t) wr vs -> (exists wd, ws = wd ++ wr /\ length wd = i) ->
      length done = i -> loop_state i (done ++ repeat RNil (length wr)) H -> Forall2 (reads H (S ci)) js done ->
      match go_ser_items (map ser vs) t with
      | SOk js' => exists H' us, keeps [b; ci] H H' /\ nth_error H' b = Some (RItems us) /\ Forall2 (reads H' (S ci)) (js ++ js') us /\
          ev (fun n => looping n r1 ci cond item) H (Out (Next, H'))
      | SFail _ => ev (fun n => looping n r1 ci cond item) H Panicked
      end.
    Proof.
      induction vs as [|v vs IHvs]; intros wr i js done H HIH HF (wd & Ews & Ewd) Ed HS HR; inversion HF as [|w v' wr' vs' Hw HF' E1 E2]; subst; cbn [map go_ser_items].
      - assert (HE : evals r1 H cond (Out (RBool false, H))).
        { destruct HS as (A & B & C & D & E & F). replace (Out (RBool false : val, H)) with (Out (RBool (decides IsLess (Some (Z.compare (Z.of_nat (length wd)) (Z.of_nat (length ws))))) : val, H)).
          - eapply eval_order; [eapply eval_var; [cells|exact F]|eapply eval_var; [cells|exact B]|reflexivity].
          - rewrite Ews, app_nil_r, Z.compare_refl. reflexivity. }
        exists H, done. split; [apply keeps_refl|]. split; [destruct HS as (_ & _ & _ & D & _); cbn [length repeat] in D; rewrite app_nil_r in D; exact D|].
        split; [rewrite app_nil_r; exact HR|]. now apply loop_end.
      - inversion HIH as [|? ? IHv HIH']; subst.
        assert (Lw : length wd < length ws) by (rewrite Ews, app_length; cbn; lia).
        assert (HE : evals r1 H cond (Out (RBool true, H))).
        { destruct HS as (A & B & C & D & E & F). replace (Out (RBool true : val, H)) with (Out (RBool (decides IsLess (Some (Z.compare (Z.of_nat (length wd)) (Z.of_nat (length ws))))) : val, H)).
          - eapply eval_order; [eapply eval_var; [cells|exact F]|eapply eval_var; [cells|exact B]|reflexivity].
          - rewrite (proj2 (Z.compare_lt_iff _ _)) by lia. reflexivity. }
        destruct Hsv as [Enil|(sa & Esv & Esa)]; [rewrite Enil in Lw; cbn in Lw; lia|].
        assert (Ew : nth_error ws (length wd) = Some w) by (rewrite Ews, nth_error_app2, Nat.sub_diag by lia; reflexivity).
        assert (HV := IHv t w _ _ (S n) item n2 r1 H b (fun u => RItems (replace (length wd) u (done ++ repeat RNil (length (w :: wr')))))
                        Hw Hitem (proj1 HS)
                        ltac:(intros r' H' Gr K; assert (HS' := state_keeps _ _ _ _ K HS); assert (HS2 := HS'); destruct HS2 as (A & B & C & D & E & F); rewrite Esv in C;
                              assert (I1 : evals r' H' (vr "slice" n) (Out (RSlice sa, H'))) by (eapply (loop_var n); [exact Gr|stem|cells|reflexivity|exact HS'|exact C]);
                              assert (I2 : evals r' H' (vr "i" n) (Out (RInt (Z.of_nat (length wd)), H'))) by (eapply (loop_var n); [exact Gr|stem|cells|reflexivity|exact HS'|exact F]);
                              assert (I3 : nth_error H' sa = Some (RItems ws)) by (now apply (keeps_nth H0));
                              split; [eapply eval_index; [exact I1|exact I2|now apply (index_items X _ _ ws)]|];
                              intros ws0 ->; exists (sa, [AtIndex (length wd)]); split; [now apply (place_index _ _ _ _ _ _ ws _ I1 I2 I3 Ew)|];
                              unfold at_place; cbn [fst snd]; rewrite I3; cbn [part]; now rewrite Ew)
                        ltac:(intros r' H' Gr K u; assert (HS' := state_keeps _ _ _ _ K HS); assert (HS2 := HS'); destruct HS2 as (A & B & C & D & E & F);
                              apply assign_item; [eapply (loop_var n); [exact Gr|stem|cells|reflexivity|exact HS'|exact E]
                              |eapply (loop_var n); [exact Gr|stem|cells|reflexivity|exact HS'|exact F]|exact D|rewrite app_length, repeat_length, Ed; cbn; lia])).
        destruct (ser v t) as [j|e]; cbn [sbind].
        2: { apply loop_panics; [exact HE|]. rewrite <- (app_nil_r item). apply HV. }
        destruct HV as (r' & H' & u & Gr & K & HRu & Hrun).
        set (D1 := RItems (replace (length wd) u (done ++ repeat RNil (length (w :: wr'))))) in *.
        set (H2 := replace b D1 H') in *.
        assert (HS' := state_keeps _ _ _ _ K HS). destruct HS' as (A & B & C & D & E & F). assert (Lci := nth_some_lt _ _ _ F).
        set (H3 := replace ci (RInt (Z.of_nat (length wd) + 1)) H2).
        assert (L3 : length H3 = length H') by (unfold H3, H2; now rewrite !length_replace).
        assert (ED1 : D1 = RItems ((done ++ [u]) ++ repeat RNil (length wr'))).
        { unfold D1. cbn [length repeat]. rewrite <- Ed, replace_app, <- app_assoc. reflexivity. }
        assert (K3 : keeps [b; ci] H H3).
        { unfold H3, H2. apply keeps_replace; [left; cbn; tauto|]. apply keeps_replace; [left; cbn; tauto|]. apply (keeps_more []); [intros ? []|exact K]. }
        assert (K3' : keeps [b; ci] H' H3).
        { unfold H3, H2. apply keeps_replace; [left; cbn; tauto|]. apply keeps_replace; [left; cbn; tauto|]. apply keeps_refl. }
        assert (HS3 : loop_state (S (length wd)) ((done ++ [u]) ++ repeat RNil (length wr')) H3).
        { split; [apply (keeps_new [b; ci] H0 H'); [exact A|intros a [<-|[<-|[]]]; lia|exact K3']|].
          destruct K3' as [_ K3'']. split; [apply K3''; [exact B|cbn; lia]|]. split; [apply K3''; [exact C|cbn; lia]|].
          split; [unfold H3; rewrite nth_replace_other by lia; unfold H2; rewrite <- ED1; apply nth_replace_same; lia|].
          split; [apply K3''; [exact E|cbn; lia]|]. unfold H3. rewrite nth_replace_same by (unfold H2; rewrite length_replace; lia). f_equal. f_equal. lia. }
        assert (HR3 : Forall2 (reads H3 (S ci)) (js ++ [j]) (done ++ [u])).
        { apply Forall2_app.
          - apply (items_keeps [b; ci] H _ (S ci)); [exact K3|intros a [<-|[<-|[]]]; lia|lia|exact HR].
          - constructor; [|constructor]. assert (LH : ci < length H) by (destruct HS as (_ & _ & _ & _ & _ & F0); now apply nth_some_lt in F0).
            apply (reads_keeps [b; ci] H' _ (length H)); [exact K3'|intros a [<-|[<-|[]]]; lia|lia|exact HRu]. }
        assert (HN := IHvs wr' (S (length wd)) (js ++ [j]) (done ++ [u]) H3 HIH' HF'
          ltac:(exists (wd ++ [w]); split; [rewrite <- app_assoc; exact Ews|rewrite app_length; cbn; lia]) ltac:(rewrite app_length; cbn; lia) HS3 HR3).
        assert (HL : forall o, ev (fun n => looping n r1 ci cond item) H3 o -> ev (fun n => looping n r1 ci cond item) H o).
        { intros o Ho. apply (loop_step _ _ _ _ _ _ _ _ _ H2 _ _ _ (Z.of_nat (length wd))); [exact HE| |unfold H2; rewrite nth_replace_other by lia; exact F|exact Ho].
          rewrite <- (app_nil_r item). apply Hrun, run_nil. }
        destruct (go_ser_items (map ser vs) t) as [js'|e]; cbn [sbind]; [|now apply HL].
        destruct HN as (H4 & us & K4 & E4 & F4 & R4). exists H4, us. split; [now apply (keeps_trans _ _ H3)|]. split; [exact E4|].
        split; [rewrite <- app_assoc in F4; exact F4|]. now apply HL.
    Qed.
  End Array.
  (** * Maps *)
  Section Map.
    Variable t : ty.
    Variable n n2 : nat.
    Variable item : list gstmt.
    Hypothesis Hitem : serialize_code t (vr "v" n) (XIndex (vr "target" n) (vr "k" n)) (S n) = (item, n2).
    Variable r : scope.
    Variable b : nat.
    Hypothesis Hb : length H0 <= b.
    Variable sv : val.
    Notation r1 := ((num_var "map" n, S (S b)) :: (num_var "target" n, S b) :: r).

    Lemma entries_loop : forall vs ws js es H,
      Forall (fun kv => value_runs (snd kv)) vs -> Forall2 (fun kw kv => fst kw = fst kv /\ shown t (snd kw) (snd kv)) ws vs ->
      NoDup (keys vs) -> (forall k, In k (keys vs) -> ~ In k (keys js)) ->
      keeps [] H0 H -> nth_error H b = Some (REntries es) -> nth_error H (S b) = Some (RMap b) -> entries_read H (S b) js es ->
      match go_ser_entries (map (fun kv => (fst kv, ser (snd kv))) vs) t with
      | SOk js' => exists H' es', keeps [b] H H' /\ nth_error H' b = Some (REntries es') /\ entries_read H' (S b) (js ++ js') es' /\
          ev (fun m => ranging m r1 (num_var "k" n) (Some (num_var "v" n)) item (map (fun kv => (RStr (fst kv), snd kv)) ws)) H (Out (Next, H'))
      | SFail _ => ev (fun m => ranging m r1 (num_var "k" n) (Some (num_var "v" n)) item (map (fun kv => (RStr (fst kv), snd kv)) ws)) H Panicked
      end.
    Proof.
      induction vs as [|[k v] vs IHvs]; intros ws js es H HIH HF Hnd Hdis K0 Eb Et HR; inversion HF as [|[k' w] v' ws' vs' [Ek Hw] HF' E1 E2]; subst; cbn [map go_ser_entries fst snd].
      - exists H, es. split; [apply keeps_refl|]. split; [exact Eb|]. split; [rewrite app_nil_r; exact HR|]. apply range_end.
      - cbn [fst snd] in Ek, Hw. subst k'. inversion HIH as [|? ? IHv HIH']; subst. cbn [snd] in IHv. cbn [keys map fst] in Hnd, Hdis. inversion Hnd as [|? ? Hk Hnd']; subst.
        set (H1 := H ++ [RStr k; w]). set (r2 := (num_var "v" n, S (length H)) :: (num_var "k" n, length H) :: r1).
        assert (K1 : keeps [] H H1).
        { unfold H1. change [RStr k; w] with ([RStr k] ++ [w]). rewrite app_assoc. apply (keeps_trans _ _ (H ++ [RStr k])); apply keeps_app. }
        assert (Ev : nth_error H1 (S (length H)) = Some w) by (unfold H1; rewrite nth_error_app2 by lia; replace (S (length H) - length H) with 1 by lia; reflexivity).
        assert (Ek : nth_error H1 (length H) = Some (RStr k)) by (unfold H1; rewrite nth_error_app2, Nat.sub_diag by lia; reflexivity).
        assert (Lb := nth_some_lt _ _ _ Eb). assert (Lt := nth_some_lt _ _ _ Et).
        assert (HV := IHv t w _ _ (S n) item n2 r2 H1 b (fun u => REntries (upsert k u es)) Hw Hitem (keeps_trans _ _ _ _ K0 K1)
                        ltac:(intros r' H' Gr K; assert (C : cell_of r' (num_var "v" n) = Some (S (length H))) by (apply (grows_cell (S n) r2); [apply stable_num; [stem|lia]|unfold r2; cells|exact Gr]);
                              assert (E : nth_error H' (S (length H)) = Some w) by (now apply (keeps_nth H1));
                              split; [eapply eval_var; [exact C|exact E]|]; intros ws0 ->; exists (S (length H), []); split; [apply place_var; exact C|];
                              unfold at_place; cbn [fst snd part]; now rewrite E)
                        ltac:(intros r' H' Gr K u;
                              apply (assign_map _ _ _ _ _ _ _ _ _ H'); [eapply eval_var; [apply (grows_cell (S n) r2); [apply stable_num; [stem|lia]|unfold r2; cells|exact Gr]|]
                              |eapply eval_var; [apply (grows_cell (S n) r2); [apply stable_num; [stem|lia]|unfold r2; cells|exact Gr]|]|];
                              [now apply (keeps_nth H1); [|apply (keeps_nth H)]|now apply (keeps_nth H1)|now apply (keeps_nth H1); [|apply (keeps_nth H)]])).
        destruct (ser v t) as [j|e]; cbn [sbind].
        2: { apply range_panics. rewrite <- (app_nil_r item). apply HV. }
        destruct HV as (r' & H' & u & Gr & K & HRu & Hrun). set (H2 := replace b (REntries (upsert k u es)) H') in *.
        assert (K2' : keeps [b] H' H2) by (unfold H2; apply keeps_replace; [left; now left|apply keeps_refl]).
        assert (KH : keeps [] H H') by (now apply (keeps_trans _ _ H1)).
        assert (K2 : keeps [b] H H2) by (apply (keeps_trans _ _ H'); [apply (keeps_more []); [intros ? []|exact KH]|exact K2']).
        assert (HR2 : entries_read H2 (S b) (js ++ [(k, j)]) (upsert k u es)).
        { rewrite <- upsert_fresh by (apply Hdis; now left). apply (Forall2_upsert (reads _ (S b))).
          - apply (reads_keeps [b] H' _ (length H1)); [exact K2'|intros a [<-|[]]; destruct K1; lia|destruct K1; lia|exact HRu].
          - apply (entries_keeps [b] H _ (S b)); [exact K2|intros a [<-|[]]; lia|lia|exact HR]. }
        assert (HN := IHvs ws' (js ++ [(k, j)]) (upsert k u es) H2 HIH' HF' Hnd'
          ltac:(intros x Hx Hin; unfold keys in Hin; rewrite map_app in Hin; apply in_app_or in Hin as [Hin|[<-|[]]]; [now apply (Hdis x (or_intror Hx))|now apply Hk])
          ltac:(apply (keeps_new [b] H0 H'); [now apply (keeps_trans _ _ H)|intros a [<-|[]]; exact Hb|exact K2'])
          ltac:(unfold H2; apply nth_replace_same; destruct KH; lia)
          ltac:(unfold H2; rewrite nth_replace_other by lia; now apply (keeps_nth H)) HR2).
        assert (HL : runs r2 H1 item (Out (Next, H2))) by (rewrite <- (app_nil_r item); apply Hrun, run_nil).
        destruct (go_ser_entries _ t) as [js'|e]; cbn [sbind].
        + destruct HN as (H4 & es' & K4 & E4 & F4 & R4). exists H4, es'. split; [now apply (keeps_trans _ _ H2)|]. split; [exact E4|].
          split; [rewrite <- app_assoc in F4; exact F4|]. eapply range_step; [exact HL|exact R4].
        + eapply range_step; [exact HL|exact HN].
    Qed.
  End Map.

  (** * Values *)
  Lemma array_runs t mn mx w v vs value target n code n' r H a put (HIH : Forall value_runs vs) :
    (exists ws, Forall2 (shown t) ws vs /\ ((w = RNil /\ ws = []) \/ exists sa, w = RSlice sa /\ nth_error H0 sa = Some (RItems ws))) ->
    ser v (TArray t mn mx) = sbind (go_ser_items (map ser vs) t) (fun xs => SOk (JArr xs)) ->
    serialize_code (TArray t mn mx) value target n = (code, n') -> keeps [] H0 H ->
    lasting n r H (fun r' H' => value_at r' H' value w) ->
    lasting n r H (fun r' H' => forall u, ev (fun n => assign n r' target u) H' (Out (tt, replace a (put u) H'))) ->
    match ser v (TArray t mn mx) with
    | SOk j => exists r' H' u, grows n r r' /\ keeps [] H H' /\ reads H' (length H) j u /\
        forall rest o, runs r' (replace a (put u) H') rest o -> runs r H (code ++ rest) o
    | SFail _ => forall rest, runs r H (code ++ rest) Panicked
    end.
  Proof.
    intros (ws & HF & Hw) Eser Hc K0 Hv Ht. rewrite Eser. cbn [serialize_code] in Hc. destruct (serialize_code t _ _ (S n)) as [item n2] eqn:Ei. injection Hc as <- <-.
    assert (Hsize : forall H', keeps [] H0 H' -> size X w H' = Out (RInt (Z.of_nat (length ws)), H')).
    { intros H' K. destruct Hw as [[-> ->]|(sa & -> & Esa)]; [reflexivity|]. cbn [size]. unfold andthen. rewrite (items_of X H' sa ws) by (now apply (keeps_nth H0)). reflexivity. }
    set (c0 := length H).
    set (rs := (num_var "target" n, S (S (S c0))) :: (num_var "slice" n, S c0) :: (num_var "count" n, c0) :: r).
    set (Hs := H ++ [RInt (Z.of_nat (length ws)); w; RItems (repeat RNil (length ws)); RSlice (S (S c0))]).
    assert (Lc : length H0 <= c0) by (destruct K0; unfold c0; lia).
    assert (Ls : length Hs = S (S (S (S c0)))) by (unfold Hs; rewrite app_length; cbn; unfold c0; lia).
    assert (KS : keeps [] H Hs).
    { split; [lia|]. intros x v0 E _. unfold Hs. now apply nth_app_l. }
    assert (N0 : forall k u, nth_error [RInt (Z.of_nat (length ws)); w; RItems (repeat RNil (length ws)); RSlice (S (S c0))] k = Some u -> nth_error Hs (k + c0) = Some u).
    { intros k u E. unfold Hs. rewrite nth_error_app2 by (unfold c0; lia). replace (k + c0 - length H) with k by (unfold c0; lia). exact E. }
    set (HI := Hs ++ [RInt 0]).
    assert (KI : keeps [] Hs HI) by apply keeps_app.
    assert (HS : loop_state c0 w ws 0 ([] ++ repeat RNil (length ws)) HI).
    { split; [apply (keeps_trans _ _ H); [exact K0|now apply (keeps_trans _ _ Hs)]|].
      split; [apply (keeps_nth Hs); [exact KI|apply (N0 0); reflexivity]|]. split; [apply (keeps_nth Hs); [exact KI|apply (N0 1); reflexivity]|].
      split; [apply (keeps_nth Hs); [exact KI|apply (N0 2); reflexivity]|]. split; [apply (keeps_nth Hs); [exact KI|apply (N0 3); reflexivity]|].
      unfold HI. rewrite <- Ls. apply nth_app_new. }
    assert (HL := items_loop t n n2 item Ei r c0 Lc w ws ltac:(destruct Hw as [[_ ->]|Hsa]; [now left|now right]) vs ws 0 [] [] HI HIH HF
      ltac:(now exists []) eq_refl HS (Forall2_nil _)).
    assert (Gs : grows n r rs) by (unfold rs; grow).
    (* the definitions before the loop *)
    assert (HD : forall rest o, runs rs Hs rest o -> runs r H ([SDefine [Some (num_var "count" n)] (XLen value); SDefine [Some (num_var "slice" n)] value;
          SDefine [Some (num_var "target" n)] (XMake t_array (Some (vr "count" n)))] ++ rest) o).
    { intros rest o HR. cbn [app].
      set (G1 := H ++ [RInt (Z.of_nat (length ws))]). set (G2 := G1 ++ [w]).
      assert (L1 : length G1 = S c0) by (unfold G1; rewrite app_length; cbn; unfold c0; lia). assert (L2 : length G2 = S (S c0)) by (unfold G2; rewrite app_length; cbn; lia).
      eapply run_define; [eapply eval_len; [exact (proj1 (lasting_here _ _ _ _ Hv))|now apply Hsize]|]. fold G1.
      eapply run_define; [refine (proj1 (Hv _ G1 _ _)); [grow|apply keeps_app]|]. fold G2.
      eapply run_define; [eapply eval_make_slice; eapply eval_var; [cells|]|].
      - unfold G2. apply nth_app_l. apply nth_app_new.
      - rewrite L1, app_length, L2. cbn [length]. replace (S (S c0) + 1) with (S (S (S c0))) by lia.
        replace ((G2 ++ [RItems (repeat RNil (length ws))]) ++ [RSlice (S (S c0))]) with Hs by (unfold G2, G1, Hs; now rewrite <- !app_assoc). exact HR. }
    destruct (go_ser_items (map ser vs) t) as [js|e]; cbn [sbind].
    - destruct HL as (H' & us & K & Eb & HR & Hrun). cbn [app] in HR.
      assert (KH : keeps [] H H').
      { apply (keeps_new [S (S c0); S (S (S (S c0)))] H HI); [now apply (keeps_trans _ _ Hs)|intros x [<-|[<-|[]]]; unfold c0; lia|exact K]. }
      exists rs, H', (RSlice (S (S c0))). split; [exact Gs|]. split; [exact KH|]. split.
      + apply reads_arr. exists (S (S c0)), us. split; [reflexivity|]. split; [unfold c0; lia|]. split; [exact Eb|].
        apply (items_keeps [] H' _ (S (S (S (S (S c0)))))); [apply keeps_refl|intros ? []|unfold c0; lia|exact HR].
      + intros rest o HRest. cbn [app]. apply HD. eapply run_for; [rewrite Ls; exact Hrun|].
        eapply run_assign; [eapply eval_var; [unfold rs; cells|]|refine (Ht _ H' _ _ _); [exact Gs|exact KH]|exact HRest].
        destruct K as [_ K]. apply K; [apply (keeps_nth Hs); [exact KI|apply (N0 3); reflexivity]|cbn; lia].
    - intros rest. cbn [app]. apply HD. apply run_for_panics. rewrite Ls. exact HL.
  Qed.

  Lemma map_runs t w v vs value target n code n' r H a put (HIH : Forall (fun kv => value_runs (snd kv)) vs) :
    NoDup (keys vs) ->
    (exists ws, Forall2 (fun kw kv => fst kw = fst kv /\ shown t (snd kw) (snd kv)) ws vs /\ ((w = RNil /\ ws = []) \/ exists sa, w = RMap sa /\ nth_error H0 sa = Some (REntries ws))) ->
    ser v (TMap t) = sbind (go_ser_entries (map (fun kv => (fst kv, ser (snd kv))) vs) t) (fun xs => SOk (JObj xs)) ->
    serialize_code (TMap t) value target n = (code, n') -> keeps [] H0 H ->
    lasting n r H (fun r' H' => value_at r' H' value w) ->
    lasting n r H (fun r' H' => forall u, ev (fun n => assign n r' target u) H' (Out (tt, replace a (put u) H'))) ->
    match ser v (TMap t) with
    | SOk j => exists r' H' u, grows n r r' /\ keeps [] H H' /\ reads H' (length H) j u /\
        forall rest o, runs r' (replace a (put u) H') rest o -> runs r H (code ++ rest) o
    | SFail _ => forall rest, runs r H (code ++ rest) Panicked
    end.
  Proof.
    intros Hnd (ws & HF & Hw) Eser Hc K0 Hv Ht. rewrite Eser. cbn [serialize_code] in Hc. destruct (serialize_code t _ _ (S n)) as [item n2] eqn:Ei. injection Hc as <- <-.
    assert (Hran : forall H', keeps [] H0 H' -> ranged X w H' = Out (map (fun kv => (RStr (fst kv), snd kv)) ws, H')).
    { intros H' K. destruct Hw as [[-> ->]|(sa & -> & Esa)]; [reflexivity|]. cbn [ranged]. unfold andthen. rewrite (entries_of X H' sa ws) by (now apply (keeps_nth H0)). reflexivity. }
    set (b := length H).
    set (rs := (num_var "map" n, S (S b)) :: (num_var "target" n, S b) :: r).
    set (Hs := H ++ [REntries []; RMap b; w]).
    assert (Lb : length H0 <= b) by (destruct K0; unfold b; lia).
    assert (Ls : length Hs = S (S (S b))) by (unfold Hs; rewrite app_length; cbn; unfold b; lia).
    assert (KS : keeps [] H Hs).
    { split; [lia|]. intros x v0 E _. unfold Hs. now apply nth_app_l. }
    assert (N0 : forall k u, nth_error [REntries []; RMap b; w] k = Some u -> nth_error Hs (k + b) = Some u).
    { intros k u E. unfold Hs. rewrite nth_error_app2 by (unfold b; lia). replace (k + b - length H) with k by (unfold b; lia). exact E. }
    assert (KS0 : keeps [] H0 Hs) by (now apply (keeps_trans _ _ H)).
    assert (HL := entries_loop t n n2 item Ei r b Lb vs ws [] [] Hs HIH HF Hnd ltac:(intros k _ []) KS0 (N0 0 _ eq_refl) (N0 1 _ eq_refl) (Forall2_nil _)).
    assert (Gs : grows n r rs) by (unfold rs; grow).
    assert (HD : forall rest o, runs rs Hs rest o -> runs r H ([SDefine [Some (num_var "target" n)] (XMake t_object None); SDefine [Some (num_var "map" n)] value] ++ rest) o).
    { intros rest o HR. cbn [app]. eapply run_define; [apply eval_make_map|]. rewrite app_length. cbn [length].
      set (G2 := (H ++ [REntries []]) ++ [RMap (length H)]). assert (L2 : length G2 = S (S b)) by (unfold G2; rewrite !app_length; cbn; unfold b; lia).
      eapply run_define; [refine (proj1 (Hv _ G2 _ _)); [grow|apply (keeps_trans _ _ (H ++ [REntries []])); apply keeps_app]|]. rewrite L2.
      replace (length H + 1) with (S b) by (unfold b; lia). replace (G2 ++ [w]) with Hs by (unfold G2, Hs, b; now rewrite <- !app_assoc). exact HR. }
    assert (Em : evals rs Hs (vr "map" n) (Out (w, Hs))) by (eapply eval_var; [unfold rs; cells|apply (N0 2); reflexivity]).
    destruct (go_ser_entries _ t) as [js|e]; cbn [sbind].
    - destruct HL as (H' & es & K & Eb & HR & Hrun). cbn [app] in HR.
      assert (KH : keeps [] H H').
      { apply (keeps_new [b] H Hs); [exact KS|intros x [<-|[]]; unfold b; lia|exact K]. }
      exists rs, H', (RMap b). split; [exact Gs|]. split; [exact KH|]. split.
      + apply reads_obj. exists b, es. split; [reflexivity|]. split; [unfold b; lia|]. split; [exact Eb|].
        apply (entries_keeps [] H' _ (S b)); [apply keeps_refl|intros ? []|unfold b; lia|exact HR].
      + intros rest o HRest. cbn [app]. apply HD. eapply run_range; [exact Em|now apply Hran|exact Hrun|].
        eapply run_assign; [eapply eval_var; [unfold rs; cells|]|refine (Ht _ H' _ _ _); [exact Gs|exact KH]|exact HRest].
        destruct K as [_ K]. apply K; [apply (N0 1); reflexivity|cbn; lia].
    - intros rest. cbn [app]. apply HD. eapply run_range_panics; [exact Em|now apply Hran|exact HL].
  Qed.

  Lemma values_run : forall v, value_runs v.
  Proof.
    induction v as [v Hv|vs IH|vs IH|vs IH] using goval_ind'; intros t w value target n code n' r H a put Hs Hc K0 Hval Ht.
    - destruct Hs as [b|bs z|bs f|p s|p s|f x|f x|f x|s| |d|t mn mx sa ws vs Ea HF|t mn mx|t sa ws vs Ea Hnd HF|t|nm o i ws Eo Ei Eid|nm|nm e ws vs Ee Hf]; try contradiction;
        try (cbn [serialize_code] in Hc; injection Hc as <- <-; cbn [go_ser_value];
             first [eapply atom_runs; [exact (proj1 (lasting_here _ _ _ _ Hval))|reflexivity|exact Ht]
                   |eapply atom_runs; [eapply eval_method; [exact (proj1 (lasting_here _ _ _ _ Hval))|apply args_nil|reflexivity]|reflexivity|exact Ht]
                   |idtac]).
      + destruct (layout f) as [|c l] eqn:El; (eapply atom_runs; [|reflexivity|exact Ht]); [apply eval_text|].
        eapply eval_method; [exact (proj1 (lasting_here _ _ _ _ Hval))|eapply args_cons; [apply eval_text|apply args_nil]|reflexivity].
      + destruct (layout f) as [|c l] eqn:El; (eapply atom_runs; [|reflexivity|exact Ht]); [apply eval_text|].
        eapply eval_method; [exact (proj1 (lasting_here _ _ _ _ Hval))|eapply args_cons; [apply eval_text|apply args_nil]|reflexivity].
      + destruct (layout f) as [|c l] eqn:El; (eapply atom_runs; [|reflexivity|exact Ht]); [apply eval_text|].
        eapply eval_method; [exact (proj1 (lasting_here _ _ _ _ Hval))|eapply args_cons; [apply eval_text|apply args_nil]|reflexivity].
      + eapply atom_runs; [eapply eval_call; [eapply args_cons; [exact (proj1 (lasting_here _ _ _ _ Hval))|apply args_nil]|]|reflexivity|exact Ht].
        eapply call_library; [reflexivity|]. reflexivity.
      + apply (array_runs t mn mx RNil GNil [] value target n code n' r H a put); try assumption; try reflexivity; [constructor|]. exists []. split; [constructor|]. left. now split.
      + apply (map_runs t RNil GNil [] value target n code n' r H a put); try assumption; try reflexivity; [constructor|constructor|]. exists []. split; [constructor|]. left. now split.
      + rewrite Eo. eapply atom_runs; [|reflexivity|exact Ht]. eapply eval_field_pointer; [exact (proj1 (lasting_here _ _ _ _ Hval))|]. cbn [fst snd app].
        unfold at_place. cbn [fst snd]. rewrite (keeps_nth H0 H _ _ K0 Ei). cbn [part]. now rewrite Eid.
      + intros rest. cbn [app]. apply run_assign_panics. eapply eval_field_nil. exact (proj1 (lasting_here _ _ _ _ Hval)).
    - inversion Hs; subst. apply (array_runs t0 mn mx (RSlice a0) (GList vs) vs value target n code n' r H a put); try assumption; try reflexivity.
      exists ws. split; [assumption|]. right. eexists. split; [reflexivity|assumption].
    - inversion Hs; subst. apply (map_runs t0 (RMap a0) (M_GoGen.GMap vs) vs value target n code n' r H a put); try assumption; try reflexivity.
      exists ws. split; [assumption|]. right. eexists. split; [reflexivity|assumption].
    - inversion Hs as [| | | | | | | | | | | | | | | | |nm e ws vs' Ee Hf]; subst. cbn [serialize_code] in Hc. injection Hc as <- <-. cbn [go_ser_value]. rewrite Ee.
      destruct (lasting_here _ _ _ _ Hval) as [_ Hpl]. destruct (Hpl ws eq_refl) as (l & Epl & Eat).
      assert (HFn := function_runs nm (e_props e) vs ws l H IH (Hembeds nm e Ee) K0 Eat Hf). unfold gattributes_of in HFn.
      destruct (go_ser_properties X (e_props e) _ []) as [js|er]; cbn [sbind].
      + destruct HFn as (H' & u & K & HR & Hcall). exists r, H', u. split; [apply grows_refl|]. split; [exact K|]. split; [exact HR|]. intros rest o HRest. cbn [app].
        eapply run_assign; [eapply eval_call; [eapply args_cons; [apply eval_addr; exact Epl|apply args_nil]|exact Hcall]|refine (Ht r H' _ _ u); [apply grows_refl|exact K]|exact HRest].
      + intros rest. cbn [app]. apply run_assign_panics. eapply eval_call_panics; [eapply args_cons; [apply eval_addr; exact Epl|apply args_nil]|exact HFn].
  Qed.
End Serializers.
