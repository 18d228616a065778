(** Running the generated Go parsers: a call of the function of the graph. *)
From Coq Require Import String List Arith NArith ZArith Bool Lia.
From Verif Require Import Base M_Naming M_Errors M_Schema M_Dec M_TypeGraph M_Walk M_GoImports M_Duration M_GoGen M_AutoID S_Scope M_Scope M_GoScope
  S_Conform S_Common S_GoGen P_Common P_GoBase P_AutoID P_Scope P_BlockScope P_GoScope
  S_Compare S_GoTyping M_GoTyping P_GoTyping.
From Verif Require Import S_GoRun S_GoMemory P_GoRun P_GoRunParse P_GoRunValue P_GoRunRoot.
Import ListNotations.
Open Scope list_scope.
From Verif Require P_GoGraph.
Local Open Scope nat_scope.

Section Graph.
  Variable X : gext.
  Variable printed : str -> list (rv (g_time X)) -> str.
  Variable duration_to : Z -> str.
  Variable structs : list (str * list (str * gtype)).
  Variable functions : list gfunction.
  Variable globals : list (str * str).
  Variable G : graph.
  Notation val := (rv (g_time X)).
  Notation mem := (memory X).
  Notation called := (S_GoRun.call X printed go_dur_from duration_to structs functions globals).
  Notation usable := (usable globals G).
  Notation fresh_field := (fresh_field X G).
  Notation parses := (parses X printed duration_to functions G).
  Notation fields_of ps := (map (fun p => field (p_name p)) ps).
  Notation errors_at := (errors_at X printed).
  Hypothesis Hzero : forall avail t, usable avail t -> exists z, shaped X G t z /\ zero_is X structs (go_ty t) z.
  Hypothesis Hembeds : forall n e, find_embed G n = Some e -> parses n false (embed_references G n) (e_props e) /\ NoDup (fields_of (e_props e)) /\
    NoDup (map c_name (embed_references G n)) /\ Forall (fun p => usable (fun c => In c (embed_references G n)) (p_type p)) (e_props e).
  Hypothesis Hclasses : forall k c, nth_error (g_classes G) k = Some c -> parses (c_name c) true (references_of G k) (c_props c) /\
    NoDup (map c_name (references_of G k)) /\ incl (references_of G k) (g_classes G) /\ Forall (fun p => usable (fun c => In c (references_of G k)) (p_type p)) (c_props c).
  Hypothesis Hcfields : forall c, In c (g_classes G) -> NoDup (s_ "ID" :: fields_of (c_props c)).
  Hypothesis Hczero : forall c, In c (g_classes G) -> exists zs, zero_is X structs (GNamed (ucamel (c_name c))) (RStruct zs) /\ zero_instance X G c zs.
  Hypothesis Hids : forall c p, In c (g_classes G) -> c_id_pattern c = Some p -> known_pattern globals G p.
  Hypothesis HN : NoDup (map c_name (g_classes G)).
  Hypothesis Hgfields : NoDup (map (fun c => field (c_plural c)) (g_classes G) ++ fields_of (g_props G)).
  Hypothesis Hgusable : Forall (fun p => usable (fun c => In c (g_classes G)) (p_type p)) (g_props G).
  Hypothesis Hglib : forall vs, library X printed go_dur_from duration_to (go_from (g_name G)) vs = None.
  Hypothesis Hgfind : find (fun h => str_eqb (gf_name h) (go_from (g_name G))) functions = Some (parse_graph_code G).

  Lemma graph_called v w reft a path ec (H : mem) cv ws0 es : json_in H [a; ec] v w -> errors_at H ec es -> a <> ec -> nth_error H a = Some cv -> part path cv = Some (RStruct ws0) ->
    (forall c, In c (g_classes G) -> lookup (field (c_plural c)) ws0 = Some RNil) -> (forall p, In p (g_props G) -> exists w, lookup (field (p_name p)) ws0 = Some w /\ fresh_field p w) ->
    match go_graph_from X G in_turn v reft es with
    | Panic _ => ev X (fun n => called n (go_from (g_name G)) [w; RStr reft; RPointer (a, path); RPointer (ec, [])]) H Panicked
    | Done (res, es') => exists H', ev X (fun n => called n (go_from (g_name G)) [w; RStr reft; RPointer (a, path); RPointer (ec, [])]) H (Out ([], H')) /\ keeps [a; ec] H H' /\ errors_at H' ec es' /\
        (go_empty es' = true -> exists gg ins, res = Some gg /\ shown_graph X G ins H' (a, path) gg)
    end.
  Proof.
    intros HJ He Hne Ea Epart Hnil Hfresh.
    set (vs := [w; RStr reft; RPointer (a, path); RPointer (ec, [])]). set (L := length H). set (Hb := H ++ vs).
    set (r0 := bound (map fst (gf_params (parse_graph_code G))) L []).
    assert (La : a < L) by (now apply nth_some_lt in Ea). assert (Lec : ec < L) by (destruct He as (ers & E & _); now apply nth_some_lt in E).
    assert (LHb : length Hb = L + 4) by (unfold Hb, vs; rewrite app_length; reflexivity).
    assert (Kb : keeps [] H Hb) by (split; [lia|]; intros x u E _; now apply nth_app_l).
    assert (Heb : errors_at Hb ec es) by (eapply errors_keeps; [exact Kb|intros []|exact He]).
    assert (Hat : forall i u x, x = L + i -> nth_error vs i = Some u -> nth_error Hb x = Some u) by (intros i u x -> E; unfold Hb, L; now rewrite nth_snoc).
    assert (V0 : nth_error Hb L = Some w) by (apply (Hat 0); [lia|reflexivity]).
    assert (V1 : nth_error Hb (S L) = Some (RStr reft)) by (apply (Hat 1); [lia|reflexivity]).
    assert (V2 : nth_error Hb (S (S L)) = Some (RPointer (a, path))) by (apply (Hat 2); [lia|reflexivity]).
    assert (V3 : nth_error Hb (S (S (S L))) = Some (RPointer (ec, []))) by (apply (Hat 3); [lia|reflexivity]).
    assert (HP := preconditions_run X printed duration_to structs functions globals H [a; ec] ec Lec v w reft a path es r0 Hb (Some (Own "cast")) L (S (S L)) (S (S (S L))) (S L) (or_intror eq_refl) HJ Heb
      eq_refl V0 eq_refl V2 eq_refl V3 eq_refl V1).
    assert (Hcall : forall o, ev X (fun n => exec X printed go_dur_from duration_to structs functions globals n r0 (gf_body (parse_graph_code G))) Hb o -> o <> Stuck ->
      ev X (fun n => called n (go_from (g_name G)) vs) H (match o with Out (_, H') => Out ([], H') | Panicked => Panicked | Stuck => Stuck end)).
    { intros o Hr Hs. eapply (call_runs X printed duration_to structs functions globals H ec Lec); [exact Hglib|exact Hgfind|reflexivity|reflexivity|exact Hr|exact Hs]. }
    unfold parse_graph_code in Hcall. cbn [gf_body] in Hcall.
    destruct (go_empty es) eqn:Hem; cbn [negb] in HP.
    2: { unfold go_graph_from. rewrite Hem. cbn [negb]. apply (Hcall Panicked); [apply HP|discriminate]. }
    assert (Hother : match v with JObj _ => False | _ => True end -> go_graph_from X G in_turn v reft es = Done (None, gadd reft (GExpectedType (s_ "a map[string]interface{}") (gtype_of v)) es)).
    { intros Hv. unfold go_graph_from. rewrite Hem. cbn [negb]. destruct v; try contradiction; reflexivity. }
    destruct v as [| | | | | |l]; [..|idtac]; only 1-6: (rewrite Hother by exact I; destruct HP as (H' & K' & He' & Hr'); exists H'; split; [apply (Hcall (Out (Return, H'))); [apply Hr'|discriminate]|]; split;
      [apply (keeps_trans _ _ Hb); [now apply keeps_nil|]; revert K'; apply keeps_more; intros q [<-|[]]; right; now left|]; split; [exact He'|]; intros E; now rewrite (not_empty X H ec Lec) in E).
    clear Hother. apply json_obj in HJ as HJ'. destruct HJ' as (b & wsall & Ew & Hb0 & Eb & Hndl & HE).
    set (Hc := Hb ++ [w; RBool true]) in *. assert (LHc : length Hc = L + 6) by (unfold Hc; rewrite app_length; cbn; lia).
    assert (Kc : keeps [] H Hc) by (apply (keeps_trans _ _ Hb); [exact Kb|apply keeps_two]).
    assert (Hcat : forall x u, nth_error Hb x = Some u -> nth_error Hc x = Some u) by (intros x u E; now apply nth_app_l).
    rewrite LHb in HP.
    assert (Hmove : forall x u, nth_error H x = Some u -> ~ In x [a; ec] -> nth_error Hc x = Some u /\ ~ In x [a; ec; S (L + 4)]).
    { intros x u E Hx. assert (Lx := nth_some_lt _ _ _ E). split; [apply Kc; [exact E|intros []]|]. intros [Hi|[Hi|[Hi|[]]]]; [apply Hx; now left|apply Hx; right; now left|unfold L in *; lia]. }
    assert (HB := body_runs X printed duration_to structs functions globals G Hzero Hembeds Hclasses Hcfields Hczero Hids HN Hgfields Hgusable reft l b wsall a path ec Hne Hc (S L) (S (S L)) (S (S (S L))) (L + 4) (S (L + 4))
      ltac:(split; [lia|]; split; [lia|]; split; [lia|]; repeat split; intros [Hi|[Hi|[Hi|[]]]]; lia)
      (Hcat _ _ V1) (Hcat _ _ V2) (Hcat _ _ V3)
      ltac:(rewrite <- Ew, <- LHb; unfold Hc; now rewrite nth_error_app2, Nat.sub_diag by lia) ltac:(lia) ltac:(lia) ltac:(now apply (Hmove b)) ltac:(now apply (Hmove b (REntries wsall)))
      ltac:(eapply Forall2_impl; [|exact HE]; intros x y [E1 E2]; split; [exact E1|]; revert E2; now apply json_moves) ws0 Hnil Hfresh
      ((Own "ok", S (L + 4)) :: (Own "cast", L + 4) :: r0) es
      ltac:(repeat split) ltac:(exists cv; split; [apply Kc; [exact Ea|intros []]|exact Epart]) ltac:(eapply errors_keeps; [exact Kc|intros []|exact He]) Hem).
    destruct (go_graph_from X G in_turn (JObj l) reft es) as [[res es']|pn].
    - destruct HB as (H' & K' & He' & Hr' & Hs'). exists H'. split; [apply (Hcall (Out (Return, H'))); [apply HP; exact Hr'|discriminate]|]. split; [|split; [exact He'|exact Hs']].
      apply (keeps_fresh [a; ec] [a; ec; S (L + 4)] H Hc); [now apply keeps_nil|exact K'|]. intros x [<-|[<-|[<-|[]]]]; [left; now left|left; right; now left|right; unfold L; lia].
    - apply (Hcall Panicked); [apply HP; exact HB|discriminate].
  Qed.
End Graph.
