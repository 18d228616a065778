(** Running the generated Go parsers: the graph. *)
From Coq Require Import String List Arith NArith ZArith Bool Lia.
From Verif Require Import Base M_Naming M_Errors M_Schema M_Dec M_TypeGraph M_Walk M_GoImports M_Duration M_GoGen M_AutoID S_Scope M_Scope M_GoScope
  S_Conform S_Common S_GoGen P_Common P_GoBase P_AutoID P_Scope P_BlockScope P_GoScope
  S_Compare S_GoTyping M_GoTyping P_GoTyping.
From Verif Require Import S_GoRun S_GoMemory P_GoRun P_GoRunParse P_GoRunValue.
Import ListNotations.
Open Scope list_scope.
From Verif Require P_GoGraph.
Local Open Scope nat_scope.

Lemma keys_combine {A} (ks : list str) : forall vs : list A, length vs = length ks -> keys (combine ks vs) = ks.
Proof. unfold keys. induction ks as [|k ks IH]; intros [|v vs] E; try discriminate; cbn; [reflexivity|]. rewrite IH; [reflexivity|cbn in E; lia]. Qed.
Lemma upsert_new {A} k (v : A) l : ~ In k (keys l) -> upsert k v l = l ++ [(k, v)].
Proof.
  induction l as [|[k' w] l IH]; intros Hk; [reflexivity|]. cbn. destruct (str_eqb k k') eqn:E; [apply str_eqb_eq in E; subst; exfalso; apply Hk; now left|].
  rewrite IH; [reflexivity|]. intros Hi. apply Hk. now right.
Qed.

Lemma combine_fst (A B : Type) (l1 : list A) (l2 : list B) : length l1 = length l2 -> map fst (combine l1 l2) = l1.
Proof. revert l2. induction l1 as [|x l1 IH]; intros [|y l2] E; cbn in *; try reflexivity; try discriminate. now rewrite IH by lia. Qed.
Lemma combine_snd (A B : Type) (l1 : list A) (l2 : list B) : length l1 = length l2 -> map snd (combine l1 l2) = l2.
Proof. revert l2. induction l1 as [|x l1 IH]; intros [|y l2] E; cbn in *; try reflexivity; try discriminate. now rewrite IH by lia. Qed.
Lemma nth_repeat_app (A : Type) (l1 : list A) x n o : length l1 <= o < length l1 + n -> nth_error (l1 ++ repeat x n) o = Some x.
Proof. intros Hlo. rewrite nth_error_app2 by lia. now rewrite nth_error_repeat by lia. Qed.

Lemma json_moves {T} (H H' : list (rv T)) V V' j : (forall x u, nth_error H x = Some u -> ~ In x V -> nth_error H' x = Some u /\ ~ In x V') -> forall w, json_in H V j w -> json_in H' V' j w.
Proof.
  intros Hcell. induction j as [| | | | |js IH|js IH] using jval_ind'; intros w; try (intros E; exact E).
  - rewrite !json_arr. intros (x & ws & -> & Hx & E & HF). destruct (Hcell _ _ E Hx) as [E' Hx']. exists x, ws. split; [reflexivity|]. split; [assumption|]. split; [assumption|].
    clear E E'. revert ws HF. induction IH as [|j js Hj _ IHl]; intros ws HF; inversion HF; subst; constructor; auto.
  - rewrite !json_obj. intros (x & ws & -> & Hx & E & Hn & HF). destruct (Hcell _ _ E Hx) as [E' Hx']. exists x, ws. split; [reflexivity|]. split; [assumption|]. split; [assumption|]. split; [assumption|].
    clear E E' Hn. revert ws HF. unfold entries_in. induction IH as [|j js Hj _ IHl]; intros ws HF; inversion HF as [|? ? ? ? [HE HJ'] HF']; subst; constructor; [split; auto|]. now apply IHl.
Qed.

Lemma nth_snoc (A : Type) (l1 l2 : list A) i : nth_error (l1 ++ l2) (length l1 + i) = nth_error l2 i.
Proof. rewrite nth_error_app2 by lia. f_equal. lia. Qed.

Section Root.
  Variable X : gext.
  Variable printed : str -> list (rv (g_time X)) -> str.
  Variable duration_to : Z -> str.
  Variable structs : list (str * list (str * gtype)).
  Variable functions : list gfunction.
  Variable globals : list (str * str).
  Variable G : graph.
  Notation val := (rv (g_time X)).
  Notation gval := (goval (g_time X)).
  Notation mem := (memory X).
  Notation eval := (eval X printed go_dur_from duration_to structs functions globals).
  Notation place_of := (place_of X printed go_dur_from duration_to structs functions globals).
  Notation arguments := (arguments X printed go_dur_from duration_to structs functions globals).
  Notation called := (S_GoRun.call X printed go_dur_from duration_to structs functions globals).
  Notation values := (values X printed go_dur_from duration_to structs functions globals).
  Notation assign := (assign X printed go_dur_from duration_to structs functions globals).
  Notation exec := (exec X printed go_dur_from duration_to structs functions globals).
  Notation ranging := (ranging X printed go_dur_from duration_to structs functions globals).
  Notation library := (library X printed go_dur_from duration_to).
  Notation zero_is := (zero_is X structs).
  Notation ev := (ev X).
  Notation evals r H e o := (ev (fun n => eval n r e) H o).
  Notation places r H e o := (ev (fun n => place_of n r e) H o).
  Notation runs r H ss o := (ev (fun n => exec n r ss) H o).
  Notation usable := (usable globals G).
  Notation shaped := (shaped X G).
  Notation fresh_field := (fresh_field X G).
  Notation parses := (parses X printed duration_to functions G).
  Notation fields_of ps := (map (fun p => field (p_name p)) ps).
  Ltac rule L := eapply (L X printed go_dur_from duration_to structs functions globals).

  Hypothesis Hzero : forall avail t, usable avail t -> exists z, shaped t z /\ zero_is (go_ty t) z.
  Hypothesis Hembeds : forall n e, find_embed G n = Some e -> parses n false (embed_references G n) (e_props e) /\ NoDup (fields_of (e_props e)) /\
    NoDup (map c_name (embed_references G n)) /\ Forall (fun p => usable (fun c => In c (embed_references G n)) (p_type p)) (e_props e).
  Hypothesis Hclasses : forall k c, nth_error (g_classes G) k = Some c -> parses (c_name c) true (references_of G k) (c_props c) /\
    NoDup (map c_name (references_of G k)) /\ incl (references_of G k) (g_classes G) /\ Forall (fun p => usable (fun c => In c (references_of G k)) (p_type p)) (c_props c).
  Hypothesis Hcfields : forall c, In c (g_classes G) -> NoDup (s_ "ID" :: fields_of (c_props c)).
  Definition zero_instance (c : cls) (zs : list (str * val)) : Prop := (exists i, lookup (s_ "ID") zs = Some i) /\
    forall p, In p (c_props c) -> exists w, lookup (field (p_name p)) zs = Some w /\ fresh_field p w.
  Hypothesis Hczero : forall c, In c (g_classes G) -> exists zs, zero_is (GNamed (ucamel (c_name c))) (RStruct zs) /\ zero_instance c zs.
  Hypothesis Hids : forall c p, In c (g_classes G) -> c_id_pattern c = Some p -> known_pattern globals G p.
  Hypothesis HN : NoDup (map c_name (g_classes G)).
  Hypothesis Hgfields : NoDup (map (fun c => field (c_plural c)) (g_classes G) ++ fields_of (g_props G)).
  Hypothesis Hgusable : Forall (fun p => usable (fun c => In c (g_classes G)) (p_type p)) (g_props G).
  Hypothesis Hglib : forall vs, library (go_from (g_name G)) vs = None.
  Hypothesis Hgfind : find (fun h => str_eqb (gf_name h) (go_from (g_name G))) functions = Some (parse_graph_code G).

  (** * The JSON object, the place of the graph and the cell of the errors *)
  Variable reft : str.
  Variable l : list (str * jval).
  Variable b : nat.
  Variable wsall : list (str * val).
  Variable a : nat.
  Variable path : list step.
  Variable ec : nat.
  Hypothesis Hne : a <> ec.
  Notation errors_at H es := (errors_at X printed H ec es).
  Notation key c := (go_key (c_plural c)).
  Notation fld c := (field (c_plural c)).

  (** * The registries are allocated *)

  (** The scope and the memory after the preconditions, and the cells of the variables *)
  Variable Hc : mem.
  Variable kr kt ke kc kok : nat.
  Notation W := [a; ec; kok].
  Hypothesis Hcells : kok < length Hc /\ kok <> a /\ kok <> ec /\ ~ In kr W /\ ~ In kt W /\ ~ In ke W /\ ~ In kc W.
  Hypothesis Vr : nth_error Hc kr = Some (RStr reft).
  Hypothesis Vt : nth_error Hc kt = Some (RPointer (a, path)).
  Hypothesis Ve : nth_error Hc ke = Some (RPointer (ec, [])).
  Hypothesis Vc : nth_error Hc kc = Some (RMap b).
  Hypothesis La : a < length Hc.
  Hypothesis Lec : ec < length Hc.
  Hypothesis Vb : nth_error Hc b = Some (REntries wsall).
  Hypothesis HbW : ~ In b W.
  Hypothesis HJ : entries_in Hc W l wsall.
  Hypothesis Hkeys : NoDup (keys l).

  Definition own (r : scope) : Prop :=
    cell_of r (Own "ref") = Some kr /\ cell_of r (Own "target") = Some kt /\ cell_of r (Own "errors") = Some ke /\ cell_of r (Own "cast") = Some kc /\ cell_of r (Own "ok") = Some kok.
  Lemma own_more r x k : (forall y, x = Own y -> ~ In y ["ref"; "target"; "errors"; "cast"; "ok"]%string) -> own r -> own ((x, k) :: r).
  Proof.
    intros Hx (C1 & C2 & C3 & C4 & C5). unfold own. rewrite !cell_before; [auto|intros <-; eapply Hx; [reflexivity|cbn; tauto]..].
  Qed.
  Notation kept H := (keeps W Hc H).
  Lemma kept_more H H' W' : kept H -> keeps W' H H' -> (forall x, In x W' -> In x W \/ length Hc <= x) -> kept H'.
  Proof. intros K1 K2 HW. now apply (keeps_fresh W W' Hc H). Qed.
  Lemma own_ref r H : own r -> kept H -> evals r H (ow "ref") (Out (RStr reft, H)).
  Proof. intros (C1 & _) K. rule eval_var; [exact C1|]. apply K; [exact Vr|tauto]. Qed.
  Lemma own_target r H : own r -> kept H -> evals r H (ow "target") (Out (RPointer (a, path), H)).
  Proof. intros (_ & C & _) K. rule eval_var; [exact C|]. apply K; [exact Vt|tauto]. Qed.
  Lemma own_errors r H : own r -> kept H -> evals r H (ow "errors") (Out (RPointer (ec, []), H)).
  Proof. intros (_ & _ & C & _) K. rule eval_var; [exact C|]. apply K; [exact Ve|tauto]. Qed.
  Lemma own_cast r H : own r -> kept H -> evals r H (ow "cast") (Out (RMap b, H)).
  Proof. intros (_ & _ & _ & C & _) K. rule eval_var; [exact C|]. apply K; [exact Vc|tauto]. Qed.
  Lemma kept_long H : kept H -> length Hc <= length H. Proof. now intros [? _]. Qed.

  (** The structure of the graph *)
  Definition target_is (H : mem) (ws : list (str * val)) : Prop := exists cv, nth_error H a = Some cv /\ part path cv = Some (RStruct ws).
  Lemma target_keeps H H' W' ws : target_is H ws -> keeps W' H H' -> ~ In a W' -> target_is H' ws.
  Proof. intros (cv & E1 & E2) K Ha. exists cv. split; [now apply K|exact E2]. Qed.
  Lemma registry_read r H ws c w : own r -> kept H -> target_is H ws -> lookup (fld c) ws = Some w -> evals r H (registry_field (ow "target") c) (Out (w, H)).
  Proof.
    intros Ho K (cv & E1 & E2) Ew. rule eval_field_pointer; [now apply own_target|]. unfold at_place. cbn [fst snd]. rewrite E1, (part_app path _ _ _ E2). cbn. change (ucamel (c_plural c)) with (fld c). now rewrite Ew.
  Qed.

  Section Allocate.
    Variable c : cls.
    Hypothesis Hc_in : In c (g_classes G).
    Variable zs : list (str * val).
    Hypothesis Hz : zero_is (GNamed (ucamel (c_name c))) (RStruct zs).
    Variable krf ra : nat.
    Variable ws : list (str * val).
    Hypothesis Ews : lookup (fld c) ws = Some (RMap ra).
    Hypothesis Lra : length Hc <= ra.
    Hypothesis Lkrf : length Hc <= krf.
    Hypothesis Hneq : krf <> ra.
    Notation instance := (SAssign [XIndex (registry_field (ow "target") c) (ow "id")] (XNew (ucamel (c_name c)))).
    Notation body := (match c_id_pattern c with
              | Some p => [SIf (XNot (pattern_matches G p (ow "id")))
                               [complain (of_registry "Ref" c) (s_ "expected ID to match " ++ p ++ s_ ", but got: %s") [ow "id"]]
                               [instance]]
              | None => [instance]
              end).

    Lemma allocate_loop : forall (rest : list (str * val)) r H es ents reg heap, own r -> kept H -> cell_of r (For "Ref" (c_name c)) = Some krf -> nth_error H krf = Some (RStr (gslash reft (key c))) ->
      target_is H ws -> errors_at H es -> nth_error H ra = Some (REntries ents) -> NoDup (keys ents ++ keys rest) ->
      exists reg' heap' es' H' ents', M_GoGen.go_allocate X c reft (keys rest) reg heap es = Done ((reg', heap'), es') /\ keeps [ra; ec] H H' /\ errors_at H' es' /\
        nth_error H' ra = Some (REntries ents') /\
        ev (fun n => ranging n r (Own "id") None body (map (fun kv => (RStr (fst kv), snd kv)) rest)) H (Out (Next, H')) /\
        (go_empty es' = true -> exists new, length new = length rest /\ NoDup new /\ Forall (fun x => length H <= x /\ nth_error H' x = Some (RStruct zs)) new /\
           ents' = ents ++ combine (keys rest) (map (fun x => RPointer (x, [])) new)).
    Proof.
      induction rest as [|[id w] rest IH]; intros r H es ents reg heap Ho K Cr Vrf Ht He Era Hnd.
      - exists reg, heap, es, H, ents. split; [reflexivity|]. split; [apply keeps_refl|]. split; [exact He|]. split; [exact Era|]. split; [apply range_end|].
        intros _. exists []. split; [reflexivity|]. split; [constructor|]. split; [constructor|]. now rewrite app_nil_r.
      - set (r1 := (Own "id", length H) :: r). set (H1 := H ++ [RStr id : val]).
        assert (Lr : ra < length H) by (now apply nth_some_lt in Era). assert (Lk := kept_long _ K).
        assert (K1 : forall V, keeps V H H1) by (intros; apply keeps_app).
        assert (KH1 : kept H1) by (apply (kept_more H H1 [] K (K1 [])); intros ? []).
        assert (Ho1 : own r1) by (apply own_more; [intros y E; injection E as <-; cbn; intuition discriminate|exact Ho]).
        assert (Eid : forall H', keeps [] H1 H' -> evals r1 H' (ow "id") (Out (RStr id, H'))).
        { intros H' K'. rule eval_var; [apply cell_here|]. apply K'; [apply nth_app_new|intros []]. }
        assert (He1 : errors_at H1 es) by (eapply errors_keeps; [apply (K1 [])|intros []|exact He]).
        assert (Ht1 : target_is H1 ws) by (apply (target_keeps H H1 [] ws Ht (K1 [])); intros []).
        assert (Hinst : exists H2, keeps [ra; ec] H H2 /\ errors_at H2 es /\ nth_error H2 ra = Some (REntries (upsert id (RPointer (S (length H), [])) ents)) /\
            nth_error H2 (S (length H)) = Some (RStruct zs) /\ runs r1 H1 [instance] (Out (Next, H2))).
        { set (H2 := H1 ++ [RStruct zs]). exists (replace ra (REntries (upsert id (RPointer (S (length H), [])) ents)) H2).
          assert (L1 : length H1 = S (length H)) by (unfold H1; rewrite app_length; cbn; lia).
          assert (L2 : length H2 = S (S (length H))) by (unfold H2; rewrite app_length; cbn; lia).
          assert (KH2 : keeps [] H1 H2) by apply keeps_app.
          assert (E2 : nth_error H2 ra = Some (REntries ents)) by (apply KH2; [apply (K1 []); [exact Era|intros []]|intros []]).
          assert (KK : keeps [] H H2) by (apply (keeps_trans _ _ H1); [apply K1|exact KH2]).
          split; [apply keeps_replace; [left; now left|now apply keeps_nil]|]. split.
          - eapply (errors_keeps X printed ec [ra] H2); [apply keeps_replace; [left; now left|apply keeps_refl]|intros [E|[]]; lia|].
            eapply errors_keeps; [exact KH2|intros []|exact He1].
          - split; [apply nth_replace_same; lia|]. split; [rewrite nth_replace_other by lia; rewrite <- L1; apply nth_app_new|].
            rule run_assign; [rule eval_new; exact Hz| |rule run_nil]. rewrite L1. fold H2.
            rule assign_map; [|apply Eid; exact KH2|exact E2]. eapply registry_read; [exact Ho1| |apply (target_keeps H1 H2 [] ws Ht1 KH2); intros []|exact Ews].
            apply (kept_more H1 H2 [] KH1 KH2). intros ? []. }
        assert (Hnid : ~ In id (keys ents)).
        { unfold keys in *. cbn [map fst] in Hnd. apply NoDup_remove_2 in Hnd. intros Hi. apply Hnd. apply in_or_app. now left. }
        assert (Hstep : forall o, runs r1 H1 body o -> (exists H2, o = Out (Next, H2) /\ keeps [ra; ec] H H2 /\ errors_at H2 es /\ nth_error H2 ra = Some (REntries (upsert id (RPointer (S (length H), [])) ents)) /\
            nth_error H2 (S (length H)) = Some (RStruct zs)) ->
          exists reg' heap' es' H' ents', M_GoGen.go_allocate X c reft (keys rest) (upsert id (length heap) reg) (heap ++ [GObj (c_name c) [] (zero_fields X (c_props c))]) es = Done ((reg', heap'), es') /\ keeps [ra; ec] H H' /\ errors_at H' es' /\
            nth_error H' ra = Some (REntries ents') /\
            ev (fun n => ranging n r (Own "id") None body (map (fun kv => (RStr (fst kv), snd kv)) ((id, w) :: rest))) H (Out (Next, H')) /\
            (go_empty es' = true -> exists new, length new = length ((id, w) :: rest) /\ NoDup new /\ Forall (fun x => length H <= x /\ nth_error H' x = Some (RStruct zs)) new /\
               ents' = ents ++ combine (keys ((id, w) :: rest)) (map (fun x => RPointer (x, [])) new))).
        { intros o Hrun (H2 & -> & K2 & He2 & Er2 & Ez2). rewrite (upsert_new id _ ents Hnid) in Er2.
          destruct (IH r H2 es (ents ++ [(id, RPointer (S (length H), []))]) (upsert id (length heap) reg) (heap ++ [GObj (c_name c) [] (zero_fields X (c_props c))])) as
            (reg' & heap' & es' & H' & ents' & E & K' & He' & Er' & Hr' & Hnew).
          - exact Ho.
          - apply (kept_more H H2 _ K K2). intros x [<-|[<-|[]]]; [now right|left; cbn; tauto].
          - exact Cr.
          - apply K2; [exact Vrf|intros [E|[E|[]]]; [now apply Hneq|lia]].
          - apply (target_keeps H H2 _ ws Ht K2). intros [E|[E|[]]]; [lia|now apply Hne].
          - exact He2.
          - exact Er2.
          - unfold keys in *. rewrite map_app. cbn [map fst] in *. rewrite <- app_assoc. exact Hnd.
          - exists reg', heap', es', H', ents'. split; [exact E|]. split; [now apply (keeps_trans _ _ H2)|]. split; [exact He'|]. split; [exact Er'|]. split.
            + cbn [map fst snd]. rule range_key_step; [exact Hrun|exact Hr'].
            + intros Em. destruct (Hnew Em) as (new & E1 & Hn & HF & ->). assert (L2 : S (length H) < length H2) by (now apply nth_some_lt in Ez2).
              exists (S (length H) :: new). split; [cbn; now rewrite E1|]. split; [|split].
              * constructor; [|exact Hn]. intros Hin. rewrite Forall_forall in HF. destruct (HF _ Hin). lia.
              * constructor; [split; [lia|]; apply K'; [exact Ez2|intros [E2|[E2|[]]]; lia]|]. eapply Forall_impl; [|exact HF]. intros x [Hx1 Hx2]. split; [lia|exact Hx2].
              * now rewrite <- app_assoc. }
        cbn [keys map fst M_GoGen.go_allocate]. fold (keys rest). destruct (c_id_pattern c) as [p|] eqn:Ep.
        + destruct (Hids c p Hc_in Ep) as (y & Ey1 & Ey2).
          assert (Em : evals r1 H1 (XNot (pattern_matches G p (ow "id"))) (Out (RBool (negb (g_match X p id)), H1))).
          { rule eval_not. unfold pattern_matches. rewrite Ey1. unfold meth. rule eval_method; [rule eval_global; exact Ey2|rule args_cons; [apply Eid, keeps_refl|rule args_nil]|reflexivity]. }
          destruct (g_match X p id) eqn:Emt; cbn [negb].
          * destruct Hinst as (H2 & J1 & J2 & J3 & J4 & J5). apply (Hstep (Out (Next, H2))); [|exists H2; auto].
            rule run_if; [exact Em| |rule run_nil]. rewrite ?Emt. cbn [negb]. exact J5.
          * destruct (run_report X printed duration_to structs functions globals ec r1 H1 H1 es (of_registry "Ref" c) (gslash reft (key c)) (s_ "expected ID to match " ++ p ++ s_ ", but got: %s") [ow "id"] [RStr id] (GIdMismatch p id)) as (H2 & K2 & He2 & Hrep);
              [now apply own_errors|exact He1| |apply keeps_refl|constructor; [apply Eid, keeps_refl|constructor]|now apply says_id|].
            { unfold of_registry. rule eval_var; [unfold r1; rewrite cell_before by discriminate; exact Cr|]. apply (K1 []); [exact Vrf|intros []]. }
            assert (KK : keeps [ra; ec] H H2) by (apply (keeps_trans _ _ H1); [apply K1|revert K2; apply keeps_more; intros z [<-|[]]; right; now left]).
            destruct (IH r H2 (gadd (gslash reft (key c)) (GIdMismatch p id) es) ents reg heap) as (reg' & heap' & es' & H' & ents' & E & K' & He' & Er' & Hr' & Hnew).
            -- exact Ho.
            -- apply (kept_more H H2 _ K KK). intros x [<-|[<-|[]]]; [now right|left; cbn; tauto].
            -- exact Cr.
            -- apply KK; [exact Vrf|intros [E|[E|[]]]; [now apply Hneq|lia]].
            -- apply (target_keeps H H2 _ ws Ht KK). intros [E|[E|[]]]; [lia|now apply Hne].
            -- exact He2.
            -- apply K2; [apply (K1 []); [exact Era|intros []]|intros [E|[]]; lia].
            -- unfold keys in *. cbn [map fst] in Hnd. now apply NoDup_remove_1 in Hnd.
            -- exists reg', heap', es', H', ents'. unfold gbind, greport. split; [exact E|]. split; [now apply (keeps_trans _ _ H2)|]. split; [exact He'|]. split; [exact Er'|]. split.
               ++ rule range_key_step; [|exact Hr']. rule run_if; [exact Em| |rule run_nil]. rewrite ?Emt. cbn [negb]. apply Hrep. rule run_nil.
               ++ intros Hem. apply gkeeps_allocate in E. assert (Hx := grown_to_empty _ _ E Hem). now rewrite (not_empty X Hc ec Lec) in Hx.
        + destruct Hinst as (H2 & J1 & J2 & J3 & J4 & J5). apply (Hstep (Out (Next, H2))); [exact J5|exists H2; auto].
    Qed.
  End Allocate.

  Notation zero_obj c := (GObj (c_name c) [] (zero_fields X (c_props c))).
  Lemma allocate_shape c ref ids : forall reg heap es reg' heap' es', M_GoGen.go_allocate X c ref ids reg heap es = Done ((reg', heap'), es') -> go_empty es' = true ->
    NoDup (keys reg ++ ids) -> reg' = reg ++ combine ids (List.seq (length heap) (length ids)) /\ heap' = heap ++ repeat (zero_obj c) (length ids).
  Proof.
    induction ids as [|id ids IH]; intros reg heap es reg' heap' es' E Hem Hnd; cbn [M_GoGen.go_allocate] in E.
    - injection E as <- <- <-. cbn. now rewrite !app_nil_r.
    - assert (Hstep : M_GoGen.go_allocate X c ref ids (upsert id (length heap) reg) (heap ++ [zero_obj c]) es = Done ((reg', heap'), es') ->
                      reg' = reg ++ combine (id :: ids) (List.seq (length heap) (length (id :: ids))) /\ heap' = heap ++ repeat (zero_obj c) (length (id :: ids))).
      { intros E'. assert (Hid : ~ In id (keys reg)) by (apply NoDup_remove_2 in Hnd; intros Hi; apply Hnd, in_or_app; now left). rewrite (upsert_new id _ reg Hid) in E'.
        apply IH in E' as [-> ->]; [|exact Hem|unfold keys in *; rewrite map_app; cbn [map fst]; rewrite <- app_assoc; exact Hnd].
        rewrite app_length. cbn [length combine List.seq repeat]. rewrite Nat.add_1_r, <- !app_assoc. now split. }
      destruct (c_id_pattern c) as [p|]; [|now apply Hstep]. destruct (g_match X p id); cbn [negb] in E; [now apply Hstep|].
      unfold gbind, greport in E. apply gkeeps_allocate in E. assert (Hx := grown_to_empty _ _ E Hem). now rewrite (not_empty X Hc ec Lec) in Hx.
  Qed.

  Notation inst cells := (fun o : addr => nth o cells 0).
  Notation registry R c := (registry_of R c).
  Definition class_vars (r : scope) (H : mem) (c : cls) : Prop := exists krf ko km,
    cell_of r (For "Ref" (c_name c)) = Some krf /\ nth_error H krf = Some (RStr (gslash reft (key c))) /\ length Hc <= krf /\
    cell_of r (For "Ok" (c_name c)) = Some ko /\ nth_error H ko = Some (RBool (match lookup (key c) l with Some _ => true | None => false end)) /\ length Hc <= ko /\
    cell_of r (For "Map" (c_name c)) = Some km /\ length Hc <= km /\
    forall m, lookup (key c) l = Some (JObj m) -> exists w, lookup (key c) wsall = Some w /\ nth_error H km = Some w.
  Definition pool (H : mem) (heap : list (gobj (g_time X))) (cells : list nat) : Prop :=
    length heap = length cells /\ NoDup cells /\ Forall (fun x => length Hc <= x /\ exists zs, nth_error H x = Some (RStruct zs)) cells.
  Definition class_registry (H : mem) (ws : list (str * val)) (R : gregistries) (heap : list (gobj (g_time X))) (cells : list nat) (c : cls) : Prop :=
    match lookup (key c) l with
    | None => lookup (fld c) ws = Some RNil /\ registry R c = []
    | Some (JObj m) => exists ra, lookup (fld c) ws = Some (RMap ra) /\ length Hc <= ra /\ nth_error H ra = Some (REntries (entries_of_registry X (inst cells) (registry R c))) /\
        keys (registry R c) = keys m /\
        forall id o, In (id, o) (registry R c) -> nth_error heap o = Some (zero_obj c) /\ o < length cells /\ exists zs, nth_error H (nth o cells 0) = Some (RStruct zs) /\ zero_instance c zs
    | Some _ => False
    end.
  Definition addresses (R : gregistries) (cs : list cls) : list addr := flat_map (fun c => map snd (registry R c)) cs.
  Variable ws0 : list (str * val).
  Hypothesis Hnil : forall c, In c (g_classes G) -> lookup (fld c) ws0 = Some RNil.
  Definition prepared (cs : list cls) (r : scope) (H : mem) (ws : list (str * val)) (R : gregistries) (heap : list (gobj (g_time X))) (cells : list nat) (es : gerrs) : Prop :=
    own r /\ kept H /\ target_is H ws /\ errors_at H es /\ (forall f, ~ In f (map (fun c => fld c) cs) -> lookup f ws = lookup f ws0) /\
    (forall f, ~ In f (map (fun c => fld c) cs) -> lookup f R = None) /\
    (forall c, In c cs -> class_vars r H c) /\
    (go_empty es = true -> pool H heap cells /\ (forall c, In c cs -> class_registry H ws R heap cells c) /\ NoDup (addresses R cs)).

  Lemma kept_cell (H H' : mem) x v : keeps W H H' -> length Hc <= x -> nth_error H x = Some v -> nth_error H' x = Some v.
  Proof. intros [_ K] Hx E. apply K; [exact E|]. destruct Hcells as (L & _). intros [<-|[<-|[<-|[]]]]; lia. Qed.
  Lemma vars_keep r H r' H' c : (forall s, In s ["Ref"; "Ok"; "Map"]%string -> cell_of r' (For s (c_name c)) = cell_of r (For s (c_name c))) -> keeps W H H' -> class_vars r H c -> class_vars r' H' c.
  Proof.
    intros Hr K (krf & ko & km & A1 & A2 & A3 & A4 & A5 & A6 & A7 & A8 & A9). exists krf, ko, km.
    rewrite !Hr by (cbn; tauto). repeat (split; [try assumption; now apply (kept_cell H)|]). intros m Em. destruct (A9 m Em) as (w & B1 & B2). exists w. split; [exact B1|]. now apply (kept_cell H).
  Qed.
  Lemma pool_keep H H' heap cells : keeps W H H' -> pool H heap cells -> pool H' heap cells.
  Proof.
    intros K (E & Hn & HF). split; [exact E|]. split; [exact Hn|]. eapply Forall_impl; [|exact HF]. intros x (Hx & zs & E2). split; [exact Hx|]. exists zs. now apply (kept_cell H).
  Qed.
  Lemma entries_more reg cells new : (forall id o, In (id, o) reg -> o < length cells) -> entries_of_registry X (inst (cells ++ new)) reg = entries_of_registry X (inst cells) reg.
  Proof. intros Ho. apply map_ext_in. intros [id o] Hi. cbn. now rewrite app_nth1 by (eapply Ho; exact Hi). Qed.
  Lemma registry_keep H H' ws ws' R R' heap more cells new c : keeps W H H' -> lookup (fld c) ws' = lookup (fld c) ws -> lookup (fld c) R' = lookup (fld c) R -> length heap = length cells ->
    class_registry H ws R heap cells c -> Forall (fun x => length Hc <= x /\ exists zs, nth_error H x = Some (RStruct zs)) cells -> class_registry H' ws' R' (heap ++ more) (cells ++ new) c.
  Proof.
    intros K Ew ER EL HC HF. unfold class_registry in *. assert (Er : registry R' c = registry R c) by (unfold registry_of; now rewrite ER). rewrite Er, Ew.
    destruct (lookup (key c) l) as [[| | | | | |m]|]; try exact HC. destruct HC as (ra & A1 & A2 & A3 & A4 & A5). exists ra. split; [exact A1|]. split; [exact A2|]. split.
    - rewrite entries_more; [now apply (kept_cell H)|]. intros id o Hi. now apply (A5 id o).
    - split; [exact A4|]. intros id o Hi. destruct (A5 id o Hi) as (B1 & B2 & zs & B3 & B4). split; [now apply nth_app_l|]. split; [rewrite app_length; lia|]. exists zs. rewrite app_nth1 by exact B2. split; [|exact B4].
      apply (kept_cell H); [exact K| |exact B3]. rewrite Forall_forall in HF. apply HF. now apply nth_In.
  Qed.

  Definition allocate_model (c : cls) (R : gregistries) (heap : list (gobj (g_time X))) : GM (gregistries * list (gobj (g_time X))) :=
    match lookup (key c) l with
    | None => gret (R, heap)
    | Some (JObj m) =>
        gdo (reg, heap') <- M_GoGen.go_allocate X c reft (keys (in_turn _ 1 (gslash reft (key c)) m)) [] heap;
        gret (upsert (fld c) reg R, heap')
    | Some v => greport (gslash reft (key c)) (GExpectedType (s_ "a map[string]interface{}") (gtype_of v)) (R, heap)
    end.

  Lemma registry_entries (ids : list str) : forall (cells new : list nat) k, length ids = length new -> k = length cells ->
    combine ids (map (fun x => RPointer (x, []) : val) new) = entries_of_registry X (inst (cells ++ new)) (combine ids (List.seq k (length new))).
  Proof.
    induction ids as [|id ids IH]; intros cells [|x new] k E1 E2; cbn in E1 |- *; try reflexivity; try discriminate. f_equal.
    - f_equal. rewrite app_nth2 by lia. replace (k - length cells) with 0 by lia. reflexivity.
    - rewrite (IH (cells ++ [x]) new (S k)); [|lia|rewrite app_length; cbn; lia]. unfold entries_of_registry. now rewrite <- app_assoc.
  Qed.

  Lemma class_step c cs r H ws R heap cells es : In c (g_classes G) -> ~ In (c_name c) (map c_name cs) -> ~ In (fld c) (map (fun c => fld c) cs) -> prepared cs r H ws R heap cells es ->
    exists R' heap' es' r' H' ws' cells', allocate_model c R heap es = Done ((R', heap'), es') /\ prepared (cs ++ [c]) r' H' ws' R' heap' cells' es' /\
      forall rest o, runs r' H' rest o -> runs r H (allocate_code G c ++ rest) o.
  Proof.
    intros Hin Hname Hfld (Ho & K & Ht & He & Hws & HR & Hvars & Hreg). destruct Hcells as (Lok & Hok1 & Hok2 & Hkr & Hkt & Hke & Hkc).
    set (L := length H). assert (LK := kept_long _ K). fold L in LK.
    set (r4 := (For "Map" (c_name c), L + 3) :: (For "Value" (c_name c), L + 2) :: (For "Ok" (c_name c), L + 1) :: (For "Ref" (c_name c), L) :: r).
    set (H4 := H ++ [RStr (gslash reft (key c)); RBool false; RNil; RNil] : mem).
    assert (L4 : length H4 = L + 4) by (unfold H4, L; rewrite app_length; cbn; lia).
    assert (K04 : keeps [] H H4).
    { split; [lia|]. intros x v E _. now apply nth_app_l. }
    assert (Hvars4 : forall rest o, runs r4 H4 rest o -> runs r H (SDefine [Some (For "Ref" (c_name c))] (XConcat (ow "ref") (XText (s_ "/" ++ registry_key c))) ::
               SVar (For "Ok" (c_name c)) GBool :: SVar (For "Value" (c_name c)) GAny :: SVar (For "Map" (c_name c)) t_object :: rest) o).
    { intros rest o Hr. rule run_define; [rule eval_concat; [now apply own_ref|rule eval_text]|]. change (reft ++ s_ "/" ++ registry_key c) with (gslash reft (key c)). fold L.
      rule run_var; [apply (zero_simple X structs Hc ec Lec); reflexivity|]. rule run_var; [apply (zero_simple X structs Hc ec Lec); reflexivity|]. rule run_var; [apply (zero_simple X structs Hc ec Lec); reflexivity|].
      rewrite <- !app_assoc. cbn [app]. rewrite !app_length. cbn [length]. fold L. replace (L + 3) with (L + 3) by reflexivity. exact Hr. }
    assert (Ho4 : own r4) by (unfold r4; repeat (apply own_more; [discriminate|]); exact Ho).
    assert (KH4 : kept H4) by (apply (kept_more H H4 [] K K04); intros ? []).
    assert (Hl := entries_lookup _ _ _ _ (key c) HJ).
    (* the lookup *)
    set (found := lookup (key c) wsall). set (okv := match lookup (key c) l with Some _ => true | None => false end).
    set (wv := match found with Some w => w | None => RNil end).
    set (H5 := replace (L + 1) (RBool okv) (replace (L + 2) wv H4)).
    assert (L5 : length H5 = L + 4) by (unfold H5; rewrite !length_replace; exact L4).
    assert (K45 : keeps [L + 1; L + 2] H4 H5).
    { unfold H5. apply keeps_replace; [left; now left|]. apply keeps_replace; [left; right; now left|]. apply keeps_refl. }
    assert (V0 : nth_error H5 L = Some (RStr (gslash reft (key c)))).
    { apply K45; [unfold H4; fold L; rewrite <- (Nat.add_0_r L); unfold L; now rewrite nth_snoc|]. intros [E|[E|[]]]; lia. }
    assert (V1 : nth_error H5 (L + 1) = Some (RBool okv)) by (apply nth_replace_same; rewrite length_replace; lia).
    assert (V2 : nth_error H5 (L + 2) = Some wv) by (unfold H5; rewrite nth_replace_other by lia; apply nth_replace_same; lia).
    assert (V3 : nth_error H5 (L + 3) = Some RNil).
    { apply K45; [unfold H4, L; now rewrite nth_snoc|]. intros [E|[E|[]]]; lia. }
    assert (K05 : keeps [] H H5) by (apply (keeps_new [L + 1; L + 2] H H4 H5 K04); [intros x [<-|[<-|[]]]; unfold L; lia|exact K45]).
    assert (KH5 : kept H5) by (apply (kept_more H H5 [] K K05); intros ? []).
    assert (Hlook : forall rest o, runs r4 H5 rest o -> runs r4 H4 (SAssign [of_registry "Value" c; of_registry "Ok" c] (XIndex (ow "cast") (XText (registry_key c))) :: rest) o).
    { intros rest o Hr. assert (Hvals : ev (fun n => values n r4 (XIndex (ow "cast") (XText (registry_key c))) 2) H4 (Out ([wv; RBool okv], H4))).
      { assert (Hen : entry X (RMap b) (RStr (key c)) H4 = Out (found, H4)).
        { apply entry_map. apply KH4; [exact Vb|exact HbW]. }
        pose proof (values_index X printed go_dur_from duration_to structs functions globals r4 H4 H4 H4 (ow "cast") (XText (registry_key c)) _ _ _ (own_cast r4 H4 Ho4 KH4) (eval_text X printed go_dur_from duration_to structs functions globals r4 H4 (key c)) Hen) as Hv.
        unfold wv, okv, found in *. destruct (lookup (key c) l) as [j|]; [destruct Hl as (w & Ew & _); rewrite Ew in *; exact Hv|rewrite Hl in *; exact Hv]. }
      rule run_assign2; [exact Hvals| | |exact Hr].
      - unfold of_registry. eapply assign_var; [unfold r4; rewrite cell_before by discriminate; apply cell_here|]. unfold H4, L. now rewrite nth_snoc.
      - unfold of_registry. eapply assign_var; [unfold r4; rewrite !cell_before by discriminate; apply cell_here|]. rewrite nth_replace_other by lia. unfold H4, L. now rewrite nth_snoc. }
    assert (Eok : evals r4 H5 (of_registry "Ok" c) (Out (RBool okv, H5))).
    { unfold of_registry. rule eval_var; [unfold r4; rewrite !cell_before by discriminate; apply cell_here|exact V1]. }
    assert (Ht5 : target_is H5 ws) by (apply (target_keeps H H5 [] ws Ht K05); intros []).
    assert (He5 : errors_at H5 es) by (eapply errors_keeps; [exact K05|intros []|exact He]).
    assert (Hscope : forall d s, In d cs -> cell_of r4 (For s (c_name d)) = cell_of r (For s (c_name d))).
    { intros d s Hd. assert (c_name d <> c_name c) by (intros E; apply Hname; rewrite <- E; now apply in_map). unfold r4. rewrite !cell_before; [reflexivity|intros E; injection E as _ E; congruence..]. }
    (* the rest, when the memory is known *)
    assert (Hfinal : forall H' ws' R' heapx cellsx es' km_v, keeps W H H' -> nth_error H' L = Some (RStr (gslash reft (key c))) -> nth_error H' (L + 1) = Some (RBool okv) -> nth_error H' (L + 3) = Some km_v ->
        (forall m, lookup (key c) l = Some (JObj m) -> exists w, lookup (key c) wsall = Some w /\ w = km_v) -> target_is H' ws' -> errors_at H' es' ->
        (forall f, f <> fld c -> lookup f ws' = lookup f ws /\ lookup f R' = lookup f R) -> ggrown es es' ->
        (go_empty es' = true -> exists more new, heapx = heap ++ more /\ cellsx = cells ++ new /\ length more = length new /\ NoDup new /\ Forall (fun x => length H <= x /\ exists zs, nth_error H' x = Some (RStruct zs)) new /\
           (length heap = length cells -> class_registry H' ws' R' (heap ++ more) (cells ++ new) c /\ NoDup (map snd (registry R' c)) /\ forall o, In o (map snd (registry R' c)) -> length cells <= o)) ->
        prepared (cs ++ [c]) r4 H' ws' R' heapx cellsx es').
    { intros H' ws' R' heapx cellsx es' km_v KH B1 B2 B3 B4 Ht' He' Hoth Hgr Hnew. split; [exact Ho4|]. split; [now apply (keeps_trans _ _ H)|]. split; [exact Ht'|]. split; [exact He'|]. split; [|split; [|split]].
      - intros f Hf. rewrite map_app, in_app_iff in Hf. rewrite (proj1 (Hoth f ltac:(intros ->; apply Hf; right; now left))). apply Hws. tauto.
      - intros f Hf. rewrite map_app, in_app_iff in Hf. rewrite (proj2 (Hoth f ltac:(intros ->; apply Hf; right; now left))). apply HR. tauto.
      - intros d Hd. apply in_app_or in Hd as [Hd|[<-|[]]].
        + apply (vars_keep r H); [intros s _; now apply Hscope|exact KH|now apply Hvars].
        + exists L, (L + 1), (L + 3). split; [unfold r4; rewrite !cell_before by discriminate; apply cell_here|]. split; [exact B1|]. split; [exact LK|]. split; [unfold r4; rewrite !cell_before by discriminate; apply cell_here|]. split; [exact B2|]. split; [lia|]. split; [apply cell_here|]. split; [lia|].
          intros m Em. destruct (B4 m Em) as (w & E1 & ->). now exists km_v.
      - intros Hem. destruct (Hnew Hem) as (more & new & -> & -> & N1 & N2 & N3 & N4). destruct (Hreg (grown_to_empty _ _ Hgr Hem)) as ((P1 & P2 & P3) & Hregs & Hnd). destruct (N4 P1) as (N5 & N6 & N7). split; [|split].
        + split; [rewrite !app_length; lia|]. split.
          * apply NoDup_app_disjoint; [exact P2|exact N2|]. intros x Hx1 Hx2. rewrite Forall_forall in P3, N3. destruct (P3 x Hx1) as (_ & zs & E). apply nth_some_lt in E. destruct (N3 x Hx2). lia.
          * apply Forall_app. split; [eapply Forall_impl; [|exact P3]; intros x (Hx & zs & E); split; [exact Hx|]; exists zs; now apply (kept_cell H)|].
            eapply Forall_impl; [|exact N3]. intros x [Hx E]. split; [unfold L in LK; lia|exact E].
        + intros d Hd. apply in_app_or in Hd as [Hd|[<-|[]]]; [|exact N5]. assert (fld d <> fld c) by (intros E; apply Hfld; rewrite <- E; now apply (in_map (fun c => fld c))).
          destruct (Hoth (fld d)) as [E1 E2]; [assumption|]. eapply registry_keep; [exact KH|exact E1|exact E2|exact P1|now apply Hregs|exact P3].
        + assert (Haddr : forall d, In d cs -> registry R' d = registry R d).
          { intros d Hd. unfold registry_of. rewrite (proj2 (Hoth (fld d) ltac:(intros E; apply Hfld; rewrite <- E; now apply (in_map (fun c => fld c))))). reflexivity. }
          unfold addresses. rewrite flat_map_app. cbn [flat_map]. rewrite app_nil_r.
          replace (flat_map (fun d => map snd (registry R' d)) cs) with (addresses R cs).
          2: { unfold addresses. rewrite !flat_map_concat_map. f_equal. apply map_ext_in. intros d Hd. now rewrite Haddr. }
          apply NoDup_app_disjoint; [exact Hnd|exact N6|]. intros o H1 H2. apply N7 in H2. unfold addresses in H1. apply in_flat_map in H1 as (d & Hd & Ho1). apply in_map_iff in Ho1 as ((id & o') & E & Hio). cbn in E. subst o'.
          assert (HCd := Hregs d Hd). unfold class_registry in HCd. destruct (lookup (key d) l) as [[| | | | | |m]|]; try contradiction.
          * destruct HCd as (ra & _ & _ & _ & _ & A5). destruct (A5 id o Hio) as (_ & A6 & _). lia.
          * destruct HCd as [_ E]. rewrite E in Hio. destruct Hio. }
    assert (Hcode : forall H' o rest, (forall o, runs r4 H' rest o -> runs r4 H5 (SIf (of_registry "Ok" c)
       [SAssign [of_registry "Map" c; ow "ok"] (XAssert (of_registry "Value" c) t_object);
        SIf (XNot (ow "ok"))
          [complain (of_registry "Ref" c) (s_ "expected a map[string]interface{}, but got: %T") [of_registry "Value" c]]
          [SAssign [registry_field (ow "target") c] (XMake (t_registry c) None);
           SRange (Own "id") None (of_registry "Map" c)
             (match c_id_pattern c with
              | Some p => [SIf (XNot (pattern_matches G p (ow "id")))
                               [complain (of_registry "Ref" c) (s_ "expected ID to match " ++ p ++ s_ ", but got: %s") [ow "id"]]
                               [SAssign [XIndex (registry_field (ow "target") c) (ow "id")] (XNew (ucamel (c_name c)))]]
              | None => [SAssign [XIndex (registry_field (ow "target") c) (ow "id")] (XNew (ucamel (c_name c)))]
              end)]] [] :: rest) o) -> runs r4 H' rest o -> runs r H (allocate_code G c ++ rest) o).
    { intros H' o rest Hif Hr. unfold allocate_code. cbn [app]. apply Hvars4, Hlook. now apply Hif. }
    unfold allocate_model. destruct (lookup (key c) l) as [j|] eqn:El.
    2: { exists R, heap, es, r4, H5, ws, cells. split; [reflexivity|]. split.
         - apply (Hfinal H5 ws R heap cells es RNil); auto.
           + now apply keeps_nil.
           + discriminate.
           + apply ggrown_refl.
           + intros _. exists [], []. rewrite !app_nil_r. split; [reflexivity|]. split; [reflexivity|]. split; [reflexivity|]. split; [constructor|]. split; [constructor|]. intros _. unfold class_registry. rewrite El.
             assert (Er : registry R c = []) by (unfold registry_of; rewrite HR; [reflexivity|exact Hfld]). rewrite Er. split; [split; [rewrite Hws; [now apply Hnil|exact Hfld]|reflexivity]|]. split; [constructor|intros ? []].
         - intros rest o Hr. apply (Hcode H5); [|exact Hr]. intros o' Hr'. rule run_if; [exact Eok| |exact Hr']. unfold okv. rule run_nil. }
    destruct Hl as (w & Ew & Hw). assert (Ewv : wv = w) by (unfold wv, found; now rewrite Ew).
    assert (Evalue : forall H', nth_error H' (L + 2) = Some w -> evals r4 H' (of_registry "Value" c) (Out (w, H'))).
    { intros H' E. unfold of_registry. rule eval_var; [unfold r4; rewrite !cell_before by discriminate; apply cell_here|exact E]. }
    rewrite Ewv in *.
    (* [ok] and the map are set *)
    assert (Hset : forall mv okb, let H6 := replace kok (RBool okb) (replace (L + 3) mv H5) in
        keeps [kok; L + 3] H5 H6 /\ nth_error H6 kok = Some (RBool okb) /\ nth_error H6 (L + 3) = Some mv /\ kept H6 /\ keeps W H H6 /\ length H6 = L + 4 /\
        (ev (fun n => values n r4 (XAssert (of_registry "Value" c) t_object) 2) H5 (Out ([mv; RBool okb], H5)) ->
         forall rest o, runs r4 H6 rest o -> runs r4 H5 (SAssign [of_registry "Map" c; ow "ok"] (XAssert (of_registry "Value" c) t_object) :: rest) o)).
    { intros mv okb H6. assert (Q1 : keeps [kok; L + 3] H5 H6) by (apply keeps_replace; [left; now left|]; apply keeps_replace; [left; right; now left|apply keeps_refl]).
      split; [exact Q1|]. split; [apply nth_replace_same; rewrite length_replace; lia|]. split; [unfold H6; rewrite nth_replace_other by lia; apply nth_replace_same; lia|].
      split; [apply (kept_more H5 H6 _ KH5 Q1); intros x [<-|[<-|[]]]; [left; cbn; tauto|right; lia]|].
      split; [apply (keeps_fresh W [kok; L + 3] H H5); [now apply keeps_nil|exact Q1|intros x [<-|[<-|[]]]; [left; cbn; tauto|right; unfold L; lia]]|].
      split; [unfold H6; now rewrite !length_replace|]. intros Hv rest o Hr. rule run_assign2; [exact Hv| | |exact Hr].
      - unfold of_registry. eapply assign_var; [unfold r4; apply cell_here|exact V3].
      - destruct (nth_error H5 kok) as [u|] eqn:Eu; [|apply nth_error_None in Eu; lia]. eapply assign_var; [apply Ho4|]. rewrite nth_replace_other by lia. exact Eu. }
    assert (Hbad : match j with JObj _ => False | _ => True end -> 
       exists H', prepared (cs ++ [c]) r4 H' ws R heap cells (gadd (gslash reft (key c)) (GExpectedType (s_ "a map[string]interface{}") (gtype_of j)) es) /\
         forall rest o, runs r4 H' rest o -> runs r H (allocate_code G c ++ rest) o).
    { intros Hj. destruct (Hset RNil false) as (Q1 & Q2 & Q3 & Q4 & Q5 & Q6 & Q7). set (H6 := replace kok (RBool false) (replace (L + 3) RNil H5)) in *.
      assert (He6 : errors_at H6 es) by (eapply errors_keeps; [exact Q1|intros [E|[E|[]]]; [now apply Hok2|lia]|exact He5]).
      assert (V6 : nth_error H6 (L + 2) = Some w) by (apply Q1; [exact V2|intros [E|[E|[]]]; lia]).
      destruct (run_report X printed duration_to structs functions globals ec r4 H6 H6 es (of_registry "Ref" c) (gslash reft (key c)) (s_ "expected a map[string]interface{}, but got: %T") [of_registry "Value" c] [w]
        (GExpectedType (s_ "a map[string]interface{}") (gtype_of j))) as (H7 & K7 & He7 & Hrep);
        [now apply own_errors|exact He6| |apply keeps_refl|constructor; [now apply Evalue|constructor]|eapply says_type; [exact (json_kind _ _ _ _ Hw)|reflexivity]|].
      { unfold of_registry. rule eval_var; [unfold r4; rewrite !cell_before by discriminate; apply cell_here|]. apply Q1; [exact V0|intros [E|[E|[]]]; lia]. }
      assert (LH6 : ec < length H6) by lia.
      exists H7. split.
      - apply (Hfinal H7 ws R heap cells _ RNil).
        + apply (keeps_trans _ _ H6); [exact Q5|]. revert K7. apply keeps_more. intros z [<-|[]]. cbn. tauto.
        + apply K7; [apply Q1; [exact V0|intros [E|[E|[]]]; lia]|intros [E|[]]; lia].
        + apply K7; [apply Q1; [exact V1|intros [E|[E|[]]]; lia]|intros [E|[]]; lia].
        + apply K7; [exact Q3|intros [E|[]]; lia].
        + intros m E. injection E as ->. contradiction.
        + apply (target_keeps H6 H7 [ec] ws); [|exact K7|intros [E|[]]; now apply Hne]. apply (target_keeps H5 H6 _ ws Ht5 Q1). intros [E|[E|[]]]; [congruence|lia].
        + exact He7.
        + auto.
        + apply ggrown_add.
        + intros Hem. rewrite (not_empty X Hc ec Lec) in Hem. discriminate.
      - intros rest o Hr. apply (Hcode H7); [|exact Hr]. intros o' Hr'. rule run_if; [exact Eok| |exact Hr']. unfold okv. apply Q7.
        + rule values_no_assert; [now apply Evalue| |apply (zero_simple X structs Hc ec Lec); reflexivity]. apply (wrong_type X Hc W j w); [exact Hw|]. destruct j; exact I || contradiction.
        + rule run_if; [rule eval_not; rule eval_var; [apply Ho4|exact Q2]| |rule run_nil]. cbn [negb]. apply Hrep. rule run_nil. }
    destruct j as [| | | | | |m]; try (destruct (Hbad I) as (H' & HP & Hrun); eexists R, heap, _, r4, H', ws, cells; split; [reflexivity|split; [exact HP|exact Hrun]]).
    clear Hbad.
    destruct (Hset w true) as (Q1 & Q2 & Q3 & Q4 & Q5 & Q6 & Q7). set (H6 := replace kok (RBool true) (replace (L + 3) w H5)) in *.
    assert (Hw' := Hw). apply json_obj in Hw' as (bm & wm & -> & Hbm & Ebm & Hndm & HEm).
    (* the registry *)
    set (ra := length H6). set (H7 := H6 ++ [REntries []]).
    assert (Ht6 : target_is H6 ws) by (apply (target_keeps H5 H6 _ ws Ht5 Q1); intros [E|[E|[]]]; [congruence|lia]).
    assert (K67 : keeps [] H6 H7) by apply keeps_app.
    destruct (target_keeps H6 H7 [] ws Ht6 K67 ltac:(intros [])) as (cv & Ecv & Epart).
    assert (Ewc : lookup (fld c) ws = Some RNil) by (rewrite Hws; [now apply Hnil|exact Hfld]).
    set (ws' := upsert (fld c) (RMap ra) ws).
    destruct (put_exists path cv _ Epart) as (put & Hput). set (H8 := replace a (put (RStruct ws')) H7).
    assert (K78 : keeps [a] H7 H8) by (apply keeps_replace; [left; now left|apply keeps_refl]).
    assert (K68 : keeps [a] H6 H8) by (apply (keeps_trans _ _ H7); [now apply keeps_nil|exact K78]).
    assert (Lra : ra = L + 4) by exact Q6.
    assert (Ht8 : target_is H8 ws').
    { exists (put (RStruct ws')). split; [apply nth_replace_same; unfold H7; rewrite app_length; lia|]. now apply (part_put path cv). }
    assert (Kept8 : kept H8) by (apply (kept_more H6 H8 _ Q4 K68); intros x [<-|[]]; left; now left).
    assert (Era : nth_error H8 ra = Some (REntries [])) by (apply K78; [apply nth_app_new|intros [E|[]]; lia]).
    assert (He8 : errors_at H8 es).
    { eapply errors_keeps; [exact K68|intros [E|[]]; now apply Hne|]. eapply errors_keeps; [exact Q1|intros [E|[E|[]]]; [now apply Hok2|lia]|exact He5]. }
    assert (V08 : nth_error H8 L = Some (RStr (gslash reft (key c)))) by (apply K68; [apply Q1; [exact V0|intros [E|[E|[]]]; lia]|intros [E|[]]; lia]).
    assert (V18 : nth_error H8 (L + 1) = Some (RBool okv)) by (apply K68; [apply Q1; [exact V1|intros [E|[E|[]]]; lia]|intros [E|[]]; lia]).
    assert (V38 : nth_error H8 (L + 3) = Some (RMap bm)) by (apply K68; [exact Q3|intros [E|[]]; lia]).
    assert (Ekeys : keys wm = keys m) by (apply (entries_keys _ _ _ _ HEm)).
    destruct (Hczero c Hin) as (zs & Hz & Hzi).
    destruct (allocate_loop c Hin zs Hz L ra ws' ltac:(unfold ws'; apply lookup_upsert_eq) ltac:(lia) ltac:(lia) ltac:(lia) wm r4 H8 es [] [] heap Ho4 Kept8) as
      (reg' & heap' & es' & H9 & ents' & Eal & K9 & He9 & Era9 & Hrange & Hnew); try assumption.
    { unfold r4. rewrite !cell_before by discriminate. apply cell_here. }
    { cbn. now rewrite Ekeys. }
    rewrite Ekeys in Eal.
    assert (Hgr : ggrown es es') by (eapply gkeeps_allocate; exact Eal).
    assert (Hshape : go_empty es' = true -> reg' = combine (keys m) (List.seq (length heap) (length m)) /\ heap' = heap ++ repeat (zero_obj c) (length m)).
    { intros Hem. destruct (allocate_shape _ _ _ _ _ _ _ _ _ Eal Hem ltac:(exact Hndm)) as [E1 E2]. unfold keys in E1, E2. rewrite map_length in E1, E2. now split. }
    set (R' := upsert (fld c) reg' R). assert (ERc : registry R' c = reg') by (unfold registry_of, R'; now rewrite lookup_upsert_eq).
    assert (Kall : keeps W H H9).
    { apply (keeps_fresh W [ra; ec] H H8); [|exact K9|intros x [<-|[<-|[]]]; [right; unfold L in *; lia|left; cbn; tauto]].
      apply (keeps_fresh W [a] H H6); [exact Q5|exact K68|intros x [<-|[]]; left; now left]. }
    assert (Vall : forall x v, nth_error H8 x = Some v -> L <= x -> x < ra -> nth_error H9 x = Some v) by (intros x v E G1 G2; apply K9; [exact E|intros [E'|[E'|[]]]; lia]).
    assert (Hruns : forall rest o, runs r4 H9 rest o -> runs r H (allocate_code G c ++ rest) o).
    { intros rest o Hr. apply (Hcode H9); [|exact Hr]. intros o' Hr'. rule run_if; [exact Eok| |exact Hr']. unfold okv. apply Q7.
      - rule values_assert; [now apply Evalue|reflexivity].
      - rule run_if; [rule eval_not; rule eval_var; [apply Ho4|exact Q2]| |rule run_nil]. cbn [negb].
        rule run_assign; [rule eval_make_map| |].
        + fold ra H7. change (nth_error H7 a = Some cv) in Ecv. change H8 with (replace (fst (a, path ++ [AtField (fld c)])) (put (RStruct ws')) H7).
          assert (KH7 : kept H7) by (apply (kept_more H6 H7 [] Q4 K67); intros ? []).
          rule assign_place; [exact I|exact (place_field_pointer X printed go_dur_from duration_to structs functions globals r4 H7 H7 (ow "target") (fld c) (a, path) (own_target r4 H7 Ho4 KH7))|exact Ecv|].
          cbn [snd]. rewrite (put_field _ _ _ _ _ Epart) by (now exists RNil). apply Hput.
        + rule run_range; [unfold of_registry; rule eval_var; [apply cell_here|exact V38]| |exact Hrange|rule run_nil].
          assert (Eb8 : nth_error H8 bm = Some (REntries wm)).
          { assert (Lb := nth_some_lt _ _ _ Ebm). apply K68; [apply Q1; [apply KH5; [exact Ebm|exact Hbm]|]|]; [intros [E|[E|[]]]; [apply Hbm; cbn; tauto|lia]|intros [E|[]]; apply Hbm; now left]. }
          assert (Eran : ranged X (RMap bm) H8 = Out (map (fun kv => (RStr (fst kv), snd kv)) wm, H8)) by (unfold ranged, andthen; rewrite (entries_of X _ _ _ Eb8); reflexivity).
          exact Eran. }
    assert (Hdone : forall heapx cellsx, heapx = heap' -> (go_empty es' = true -> exists new, cellsx = cells ++ new /\ length new = length wm /\ NoDup new /\
        Forall (fun x => length H8 <= x /\ nth_error H9 x = Some (RStruct zs)) new /\ ents' = combine (keys wm) (map (fun x => RPointer (x, [])) new)) ->
        prepared (cs ++ [c]) r4 H9 ws' R' heapx cellsx es').
    { intros heapx cellsx -> Hnw. apply (Hfinal H9 ws' R' heap' cellsx es' (RMap bm)).
      - exact Kall.
      - apply Vall; [exact V08|lia|lia].
      - apply Vall; [exact V18|lia|lia].
      - apply Vall; [exact V38|lia|lia].
      - intros m' _. exists (RMap bm). now split.
      - apply (target_keeps H8 H9 _ ws' Ht8 K9). intros [E|[E|[]]]; [lia|now apply Hne].
      - exact He9.
      - intros f Hf. split; apply lookup_upsert_neq; congruence.
      - exact Hgr.
      - intros Hem. destruct (Hnw Hem) as (new & -> & Ln & Nn & Fn & Een). destruct (Hshape Hem) as [Esh1 Esh2]. assert (Lm : length wm = length m).
        { apply (f_equal (@length _)) in Ekeys. unfold keys in Ekeys. now rewrite !map_length in Ekeys. }
        exists (repeat (zero_obj c) (length m)), new. split; [exact Esh2|]. split; [reflexivity|]. split; [rewrite repeat_length; lia|]. split; [exact Nn|].
        split; [eapply Forall_impl; [|exact Fn]; intros x [F1 F2]; split; [unfold L in *; assert (length H7 = S (length H6)) by (unfold H7; rewrite app_length; cbn; lia); unfold H8 in F1; rewrite length_replace in F1; lia|now exists zs]|].
        intros Hlen. rewrite ERc, Esh1.
        assert (Hreg_in : forall id o, In (id, o) (combine (keys m) (List.seq (length heap) (length m))) -> length heap <= o < length heap + length m).
        { intros id o Hio. apply in_combine_r in Hio. apply in_seq in Hio. lia. }
        assert (Lk : length (keys m) = length m) by (unfold keys; now rewrite map_length).
        assert (Hlen_new : length new = length m) by lia.
        split; [|split].
        + unfold class_registry. rewrite El. exists ra. split; [apply lookup_upsert_eq|]. split; [lia|]. rewrite ERc, Esh1. split; [|split].
          * rewrite Era9, Een. f_equal. f_equal. rewrite Ekeys, <- Hlen_new. apply registry_entries; lia.
          * unfold keys at 1. now rewrite combine_fst by (rewrite seq_length; lia).
          * intros id o Hio. specialize (Hreg_in id o Hio). split; [now apply nth_repeat_app|]. split; [rewrite app_length; lia|]. exists zs. split; [|exact Hzi].
            rewrite app_nth2 by lia. rewrite Forall_forall in Fn. apply Fn. apply nth_In. lia.
        + rewrite combine_snd by (rewrite seq_length; lia). apply seq_NoDup.
        + intros o Hio. apply in_map_iff in Hio as ((id & o') & E & Hio). cbn in E. subst o'. specialize (Hreg_in id o Hio). lia. }
    destruct (go_empty es') eqn:Hem.
    - destruct (Hnew eq_refl) as (new & E1 & E2 & E3 & E4). exists R', heap', es', r4, H9, ws', (cells ++ new). split; [|split; [|exact Hruns]].
      + unfold gbind, in_turn. now rewrite Eal.
      + apply Hdone; [reflexivity|]. intros _. exists new. auto.
    - exists R', heap', es', r4, H9, ws', cells. split; [|split; [|exact Hruns]].
      + unfold gbind, in_turn. now rewrite Eal.
      + apply Hdone; [reflexivity|]. discriminate.
  Qed.

  Lemma allocate_all : forall cs done r H ws R heap cells es, done ++ cs = g_classes G -> prepared done r H ws R heap cells es ->
    exists R' heap' es' r' H' ws' cells', M_GoGen.go_preallocate X in_turn cs l reft R heap es = Done ((R', heap'), es') /\ prepared (g_classes G) r' H' ws' R' heap' cells' es' /\
      forall rest o, runs r' H' rest o -> runs r H (flat_map (allocate_code G) cs ++ rest) o.
  Proof.
    induction cs as [|c cs IH]; intros done r H ws R heap cells es Ecs HP.
    - rewrite app_nil_r in Ecs. subst done. exists R, heap, es, r, H, ws, cells. split; [reflexivity|]. split; [exact HP|]. auto.
    - assert (Hf : NoDup (map (fun c => fld c) (g_classes G))) by (now apply NoDup_app_parts in Hgfields).
      assert (Hn := HN). rewrite <- Ecs in Hn, Hf. rewrite map_app in Hn, Hf. cbn [map] in Hn, Hf. apply NoDup_remove_2 in Hn, Hf. rewrite in_app_iff in Hn, Hf.
      destruct (class_step c done r H ws R heap cells es) as (R1 & heap1 & es1 & r1 & H1 & ws1 & cells1 & E1 & P1 & Hr1);
        [rewrite <- Ecs; apply in_elt|tauto|tauto|exact HP|].
      destruct (IH (done ++ [c]) r1 H1 ws1 R1 heap1 cells1 es1) as (R2 & heap2 & es2 & r2 & H2 & ws2 & cells2 & E2 & P2 & Hr2); [now rewrite <- app_assoc|exact P1|].
      exists R2, heap2, es2, r2, H2, ws2, cells2. split; [|split; [exact P2|]].
      + cbn [M_GoGen.go_preallocate]. unfold gbind. fold (allocate_model c R heap) in *. unfold allocate_model in E1. unfold gbind in E1. rewrite E1. exact E2.
      + intros rest o Hr. cbn [flat_map]. rewrite <- app_assoc. apply Hr1, Hr2, Hr.
  Qed.

  (** * The instances are parsed *)
  Section Fill.
    Variable r1 : scope.
    Variable H1 : mem.
    Variable ws1 : list (str * val).
    Variable R : gregistries.
    Variable heap1 : list (gobj (g_time X)).
    Variable cells : list nat.
    Variable es1 : gerrs.
    Hypothesis Hprep : prepared (g_classes G) r1 H1 ws1 R heap1 cells es1.
    Hypothesis Hem1 : go_empty es1 = true.
    Notation M := (a :: ec :: cells).
    Definition mv (c : cls) : val := match lookup (fld c) ws1 with Some v => v | None => RNil end.
    Notation held_property := (held_property X G R (inst cells)).

    Lemma cell_high x : In x cells -> length Hc <= x /\ x < length H1 /\ x <> a /\ x <> ec.
    Proof.
      intros Hx. destruct Hprep as (_ & _ & _ & _ & _ & _ & _ & Hrest). destruct (Hrest Hem1) as ((_ & _ & HF) & _). rewrite Forall_forall in HF. destruct (HF x Hx) as (L & zs & E). apply nth_some_lt in E. repeat split; lia.
    Qed.
    Lemma json_later j w : json_in Hc W j w -> json_in H1 M j w.
    Proof.
      apply json_moves. intros x u E Hx. destruct Hprep as (_ & K & _). split; [now apply K|]. intros [Hi|[Hi|Hi]]; [apply Hx; now left|apply Hx; right; now left|].
      apply cell_high in Hi. apply nth_some_lt in E. lia.
    Qed.
    Lemma entries_later js ws : entries_in Hc W js ws -> entries_in H1 M js ws.
    Proof. intros HE. eapply Forall2_impl; [|exact HE]. intros x y [E HJ']. split; [exact E|now apply json_later]. Qed.

    Lemma registries_known n c : find_class G n = Some c -> (mv c = RNil /\ registry R c = []) \/
      exists x, mv c = RMap x /\ ~ In x M /\ nth_error H1 x = Some (REntries (entries_of_registry X (inst cells) (registry R c))).
    Proof.
      intros Ef. apply find_some in Ef as [Hin _]. destruct Hprep as (_ & _ & _ & _ & _ & _ & _ & Hrest). destruct (Hrest Hem1) as ((_ & _ & HF) & HR & _).
      assert (HC := HR c Hin). unfold class_registry in HC. unfold mv. destruct (lookup (key c) l) as [[| | | | | |m]|]; try contradiction.
      - destruct HC as (ra & -> & Lra & E & _). right. exists ra. split; [reflexivity|]. split; [|exact E]. intros [Hi|[Hi|Hi]]; [lia|lia|].
        rewrite Forall_forall in HF. destruct (HF ra Hi) as (_ & zs & E2). congruence.
      - destruct HC as [-> ->]. left. now split.
    Qed.

    Definition filled (H : mem) (heap : list (gobj (g_time X))) (c : cls) (id : str) (o : addr) : Prop := exists i ws,
      nth_error heap o = Some i /\ o_class i = c_name c /\ o_id i = id /\ nth_error H (nth o cells 0) = Some (RStruct ws) /\ lookup (s_ "ID") ws = Some (RStr id) /\
      forall p, In p (c_props c) -> exists w v, lookup (field (p_name p)) ws = Some w /\ lookup (field (p_name p)) (o_fields i) = Some v /\ held_property H (length H1) p w v.
    Definition pending (H : mem) (heap : list (gobj (g_time X))) (c : cls) (o : addr) : Prop :=
      nth_error heap o = Some (zero_obj c) /\ o < length cells /\ exists zs, nth_error H (nth o cells 0) = Some (RStruct zs) /\ zero_instance c zs.
    (** What is not an instance of the list remains. *)
    Definition others (os : list addr) (H : mem) heap (H' : mem) heap' : Prop :=
      forall o, ~ In o os -> @nth_error (gobj (g_time X)) heap' o = nth_error heap o /\ (o < length cells -> nth_error H' (nth o cells 0) = nth_error H (nth o cells 0)).
    Lemma pending_others os H heap H' heap' c o : others os H heap H' heap' -> ~ In o os -> pending H heap c o -> pending H' heap' c o.
    Proof. intros Ho Hi (A1 & A2 & A3). destruct (Ho o Hi) as [E1 E2]. split; [now rewrite E1|]. split; [exact A2|]. now rewrite (E2 A2). Qed.
    Lemma filled_others os (H : mem) heap (H' : mem) heap' c id o : others os H heap H' heap' -> keeps (ec :: cells) H H' -> ~ In o os -> o < length cells -> filled H heap c id o -> filled H' heap' c id o.
    Proof.
      intros Ho K Hi Lo (i & ws & A1 & A2 & A3 & A4 & A5 & A6). destruct (Ho o Hi) as [E1 E2]. exists i, ws. rewrite E1, (E2 Lo). repeat (split; [assumption|]).
      intros p Hp. destruct (A6 p Hp) as (w & v & B1 & B2 & B3). exists w, v. split; [exact B1|]. split; [exact B2|].
      revert B3. apply (P_GoRunValue.held_property_keeps X G Hc ec Lec R (inst cells) (ec :: cells)); [exact K| |lia]. intros x [<-|Hx]; [|now apply cell_high]. destruct Hprep as (_ & K1 & _). apply kept_long in K1. lia.
    Qed.

    Lemma others_trans os os' (Ha : mem) ha (Hb : mem) hb (Hd : mem) hd : others os Ha ha Hb hb -> others os' Hb hb Hd hd -> others (os ++ os') Ha ha Hd hd.
    Proof.
      intros O1 O2 o Ho. rewrite in_app_iff in Ho. destruct (O1 o ltac:(tauto)) as [A1 A2]. destruct (O2 o ltac:(tauto)) as [B1 B2]. split; [congruence|]. intros Lo. now rewrite (B2 Lo), (A2 Lo).
    Qed.
    Lemma others_more os os' (Ha : mem) ha (Hb : mem) hb : incl os os' -> others os Ha ha Hb hb -> others os' Ha ha Hb hb.
    Proof. intros Hi O o Ho. apply O. intros Ho'. apply Ho. now apply Hi. Qed.
    Lemma registry_lookup rs id : lookup id (entries_of_registry X (inst cells) rs) = option_map (fun o => RPointer (nth o cells 0, []) : val) (lookup id rs).
    Proof. induction rs as [|[id' o] rs IHr]; [reflexivity|]. cbn [entries_of_registry map fst snd lookup]. destruct (str_eqb id id'); [reflexivity|exact IHr]. Qed.
    Lemma set_same o i (heap : list (gobj (g_time X))) j : nth_error heap o = Some j -> nth_error (M_GoGen.set_obj X o i heap) o = Some i.
    Proof. intros E. rewrite P_GoGraph.set_obj_nth by (now apply nth_some_lt in E). now rewrite Nat.eqb_refl. Qed.
    Lemma set_other o i (heap : list (gobj (g_time X))) j o' : nth_error heap o = Some j -> o <> o' -> nth_error (M_GoGen.set_obj X o i heap) o' = nth_error heap o'.
    Proof. intros E Hn. rewrite P_GoGraph.set_obj_nth by (now apply nth_some_lt in E). destruct (Nat.eqb_spec o o'); [congruence|reflexivity]. Qed.
    Lemma filled_scope : own r1 /\ kept H1 /\ target_is H1 ws1 /\ (forall c, In c (g_classes G) -> class_vars r1 H1 c).
    Proof. destruct Hprep as (A1 & A2 & A3 & _ & _ & _ & A4 & _). auto. Qed.
    Lemma keeps_cells (H H' : mem) x v : keeps (ec :: cells) H H' -> nth_error H x = Some v -> ~ In x M -> nth_error H' x = Some v.
    Proof. intros K E Hx. apply K; [exact E|]. intros [Hi|Hi]; apply Hx; [right; now left|right; now right]. Qed.

    Section Class.
      Variable c : cls.
      Variable k : nat.
      Hypothesis Hk : nth_error (g_classes G) k = Some c.
      Variable m : list (str * jval).
      Variable wm : list (str * val).
      Hypothesis Em : lookup (key c) l = Some (JObj m).
      Notation reg := (registry R c).
      Notation body := [SDo (XCall (go_from (c_name c))
             ([ow "instance value"; ow "id"] ++ map (registry_field (ow "target")) (references_of G k) ++
              [joined [of_registry "Ref" c; ow "id"]; XIndex (registry_field (ow "target") c) (ow "id"); ow "errors"]));
           when_full SBreak].
      Definition places_of (ids : list str) : list addr := flat_map (fun id => match lookup id reg with Some o => [o] | None => [] end) ids.

      Lemma instances_run : forall rest wrest H heap es, entries_in H1 M rest wrest -> keeps (ec :: cells) H1 H -> errors_at H es -> NoDup (places_of (keys rest)) ->
        (forall id, In id (keys rest) -> exists o, lookup id reg = Some o /\ pending H heap c o) ->
        match M_GoGen.go_instances X G in_turn c R reg reft rest heap es with
        | Panic _ => ev (fun n => ranging n r1 (Own "id") (Some (Own "instance value")) body (map (fun kv => (RStr (fst kv), snd kv)) wrest)) H Panicked
        | Done (heap', es') => exists H', keeps (ec :: cells) H H' /\ errors_at H' es' /\ others (places_of (keys rest)) H heap H' heap' /\
            (go_empty es' = true -> forall id o, In id (keys rest) -> lookup id reg = Some o -> filled H' heap' c id o) /\
            ev (fun n => ranging n r1 (Own "id") (Some (Own "instance value")) body (map (fun kv => (RStr (fst kv), snd kv)) wrest)) H (Out (Next, H'))
        end.
      Proof.
        destruct filled_scope as (Ho & KH1 & Ht & Hvars). assert (Hin : In c (g_classes G)) by (eapply nth_error_In; exact Hk). assert (L1 := kept_long _ KH1).
        destruct (Hclasses k c Hk) as (Hparses & Hndr & Hincl & Hus). assert (Hcf := Hcfields c Hin). inversion Hcf as [|? ? Hid Hnd]; subst.
        destruct Hprep as (_ & _ & _ & _ & _ & _ & _ & Hrest0). destruct (Hrest0 Hem1) as ((Hlen & Hndc & HFc) & HR & _). clear Hrest0.
        assert (HC := HR c Hin). unfold class_registry in HC. rewrite Em in HC. destruct HC as (ra & Era & Lra & Eents & Ekeys & _).
        assert (HraM : ~ In ra M). { intros [Hi|[Hi|Hi]]; [lia|lia|]. rewrite Forall_forall in HFc. destruct (HFc ra Hi) as (_ & zs & E2). congruence. }
        destruct (Hvars c Hin) as (krf & _ & _ & Crf & Vrf & Lrf & _). 
        assert (HrfM : ~ In krf M). { intros [Hi|[Hi|Hi]]; [lia|lia|]. rewrite Forall_forall in HFc. destruct (HFc krf Hi) as (_ & zs & E2). congruence. }
        induction rest as [|[id j] rest IH]; intros wrest H heap es HE KH He Hndp Hpend; inversion HE as [|? [id' w] ? wrest' [E1 HJ1] HE' E2 E3]; subst; cbn [fst snd] in *.
        - cbn [M_GoGen.go_instances]. exists H. split; [apply keeps_refl|]. split; [exact He|]. split; [intros o _; split; auto|]. split; [intros _ ? ? []|]. apply range_end.
        - subst id'. destruct (Hpend id (or_introl eq_refl)) as (o & Eo & (Eh & Lo & zs & Ez & Hz)). cbn [M_GoGen.go_instances]. rewrite Eo, Eh. cbn [o_fields o_class o_id].
          set (x := nth o cells 0) in *. assert (Hx : In x cells) by (now apply nth_In). destruct (cell_high x Hx) as (X1 & X2 & X3 & X4).
          set (r2 := (Own "instance value", S (length H)) :: (Own "id", length H) :: r1). set (H2 := H ++ [RStr id; w]).
          assert (K2 : keeps [] H H2) by apply keeps_two.
          set (H3 := H2 ++ [RItems (map (@RStr _) [gslash reft (key c); id])]). assert (K3 : keeps [] H2 H3) by apply keeps_app.
          assert (KM3 : keeps M H1 H3).
          { apply (keeps_trans _ _ H); [revert KH; apply keeps_more; intros z Hz'; now right|]. apply keeps_nil. apply (keeps_trans _ _ H2); assumption. }
          assert (Eid : forall H', keeps [] H2 H' -> evals r2 H' (ow "id") (Out (RStr id, H'))).
          { intros H' K'. rule eval_var; [unfold r2; rewrite cell_before by discriminate; apply cell_here|]. apply K'; [|intros []]. unfold H2. rewrite nth_error_app2 by lia. now rewrite Nat.sub_diag. }
          assert (Ew : evals r2 H2 (ow "instance value") (Out (w, H2))).
          { rule eval_var; [apply cell_here|]. unfold H2. rewrite nth_error_app2 by lia. now replace (S (length H) - length H) with 1 by lia. }
          assert (Kept2 : forall H', keeps (ec :: cells) H1 H' -> kept H').
          { intros H' K'. apply (kept_more H1 H' _ KH1 K'). intros z [<-|Hz']; [left; right; now left|right; now apply cell_high]. }
          assert (Ho2 : own r2) by (unfold r2; repeat (apply own_more; [intros y E; injection E as <-; cbn; intuition discriminate|]); exact Ho).
          assert (KC2 : keeps (ec :: cells) H1 H2) by (apply (keeps_trans _ _ H); [exact KH|now apply keeps_nil]).
          assert (KC3 : keeps (ec :: cells) H1 H3) by (apply (keeps_trans _ _ H2); [exact KC2|now apply keeps_nil]).
          assert (Htk : forall H', keeps (ec :: cells) H1 H' -> target_is H' ws1).
          { intros H' K'. apply (target_keeps H1 H' _ ws1 Ht K'). intros [E|Hi]; [now apply Hne|apply cell_high in Hi; lia]. }
          assert (Eregs : forall d, In d (g_classes G) -> forall H', keeps (ec :: cells) H1 H' -> evals r2 H' (registry_field (ow "target") d) (Out (mv d, H'))).
          { intros d Hd H' K'. eapply registry_read; [exact Ho2|now apply Kept2|now apply Htk|]. unfold mv. assert (HCd := HR d Hd). unfold class_registry in HCd.
            destruct (lookup (key d) l) as [[| | | | | |md]|]; try contradiction; [destruct HCd as (rd & -> & _)|destruct HCd as [-> _]]; reflexivity. }
          assert (Eref : evals r2 H2 (of_registry "Ref" c) (Out (RStr (gslash reft (key c)), H2))).
          { unfold of_registry. rule eval_var; [unfold r2; rewrite !cell_before by discriminate; exact Crf|]. now apply (keeps_cells H1). }
          assert (Ejoin := P_GoRunValue.eval_joined X printed duration_to structs functions globals r2 H2 [of_registry "Ref" c; ow "id"] [gslash reft (key c); id]
            ltac:(constructor; [exact Eref|constructor; [apply Eid, keeps_refl|constructor]])). fold H3 in Ejoin.
          assert (Einst : evals r2 H3 (XIndex (registry_field (ow "target") c) (ow "id")) (Out (RPointer (x, []), H3))).
          { rule eval_index; [apply Eregs; [exact Hin|exact KC3]|apply Eid; exact K3|]. unfold mv. rewrite Era.
            assert (Eent : nth_error H3 ra = Some (REntries (entries_of_registry X (inst cells) reg))) by (now apply (keeps_cells H1)).
            unfold at_index, andthen. rewrite (entry_map X _ _ _ id Eent), registry_lookup, Eo. reflexivity. }
          assert (Hargs : ev (fun n => arguments n r2 ([ow "instance value"; ow "id"] ++ map (registry_field (ow "target")) (references_of G k) ++
              [joined [of_registry "Ref" c; ow "id"]; XIndex (registry_field (ow "target") c) (ow "id"); ow "errors"])) H2
             (Out (w :: [RStr id] ++ map mv (references_of G k) ++ [RStr (gslash (gslash reft (key c)) id); RPointer (x, []); RPointer (ec, [])], H3))).
          { cbn [app]. rule args_cons; [exact Ew|]. rule args_cons; [apply Eid, keeps_refl|]. rule args_more.
            2: { assert (Hall : forall ls, incl ls (references_of G k) -> Forall2 (fun e v => evals r2 H2 e (Out (v, H2))) (map (registry_field (ow "target")) ls) (map mv ls)).
                 { induction ls as [|d ls IHl]; intros Hi; constructor; [apply Eregs; [apply Hincl; apply Hi; now left|exact KC2]|apply IHl; intros z Hz'; apply Hi; now right]. }
                 apply Hall. apply incl_refl. }
            rule args_cons; [exact Ejoin|]. rule args_cons; [exact Einst|]. rule args_cons; [apply own_errors; [exact Ho2|now apply Kept2]|rule args_nil]. }
          assert (HCC := P_GoRunValue.composite_called X printed duration_to structs functions globals G H1 M ec ltac:(right; now left) ltac:(lia) R (inst cells) mv Hzero
            (c_name c) true (references_of G k) (c_props c) j w id (gslash (gslash reft (key c)) id) x [] H3 (RStruct zs) zs es Hparses
            ltac:(destruct j; try exact I; apply Forall_forall; intros kj _; apply (P_GoRunValue.value_runs_all X printed duration_to structs functions globals G H1 M ec ltac:(right; now left) ltac:(lia) R (inst cells) mv registries_known Hzero Hembeds))
            HJ1 KM3 ltac:(left; right; now right) X4 ltac:(eapply errors_keeps; [apply (keeps_trans _ _ H2); [exact K2|exact K3]|intros []|exact He])
            ltac:(apply K3; [apply K2; [exact Ez|intros []]|intros []]) eq_refl Hnd Hndr Hus (proj2 Hz) ltac:(intros _; split; [exact (proj1 Hz)|exact Hid])).
          cbn zeta in HCC. cbn [app] in HCC. unfold gbind. change (gmembers_of X G in_turn R j) with (match j with JObj lj => map (fun kv => (fst kv, go_value X G in_turn R (snd kv))) lj | _ => [] end).
          destruct (go_composite X (c_props c) j _ _ _ es) as [[fields es2]|pn] eqn:Ecomp.
          2: { cbn [map fst snd]. rule range_panics. fold H2 r2. rule run_call_panics; [exact Hargs|exact HCC]. }
          destruct HCC as (H4 & cv & ws & K4 & He4 & Ex4 & Ew4 & _ & Hid4 & Hh4 & Hcall). cbn [with_part] in Ew4. injection Ew4 as <-.
          set (i' := GObj (c_name c) (match j with JObj _ => id | _ => [] end) fields). set (heap2 := M_GoGen.set_obj X o i' heap).
          assert (L23 : length H <= length H3) by (unfold H3, H2; rewrite !app_length; lia).
          assert (LH1 : length H1 <= length H) by (now destruct KH).
          assert (K04 : keeps (ec :: cells) H H4).
          { apply (keeps_trans _ _ H3); [apply keeps_nil; apply (keeps_trans _ _ H2); assumption|]. revert K4. apply keeps_more. intros z [<-|[<-|[]]]; [now right|now left]. }
          assert (KC4 : keeps (ec :: cells) H1 H4) by (apply (keeps_trans _ _ H); assumption).
          assert (Hoth : others [o] H heap H4 heap2).
          { intros o' Ho'. split; [apply (set_other o _ heap _ o' Eh); intros ->; apply Ho'; now left|]. intros Lo'. fold (nth o' cells 0).
            destruct (nth_error H (nth o' cells 0)) as [u|] eqn:Eu.
            - apply K4; [apply K3; [apply K2; [exact Eu|intros []]|intros []]|]. intros [E|[E|[]]].
              + apply Ho'. left. apply (proj1 (NoDup_nth cells 0) Hndc); [exact Lo|exact Lo'|exact E].
              + destruct (cell_high (nth o' cells 0)) as (_ & _ & _ & Y); [now apply nth_In|congruence].
            - exfalso. apply nth_error_None in Eu. destruct (cell_high (nth o' cells 0)) as (_ & Y & _); [now apply nth_In|lia]. }
          assert (Hfill : go_empty es2 = true -> filled H4 heap2 c id o).
          { intros Hem. exists i', ws. split; [now apply (set_same o i' heap _ Eh)|]. split; [reflexivity|].
            split; [destruct j as [| | | | | |lj]; [..|reflexivity]; exfalso; unfold go_composite in Ecomp; destruct (negb (go_empty es)); try discriminate; unfold greport in Ecomp; injection Ecomp as _ <-;
                    now rewrite (not_empty X Hc ec Lec) in Hem|].
            split; [exact Ex4|]. split; [now apply Hid4|]. intros p Hp. destruct (Hh4 Hem p Hp) as (w4 & v4 & B1 & B2 & B3). exists w4, v4. split; [exact B1|]. split; [exact B2|].
            revert B3. apply (P_GoRunValue.held_property_keeps X G Hc ec Lec R (inst cells) []); [apply keeps_refl|intros ? []|lia]. }
          assert (Hps : places_of (keys ((id, j) :: rest)) = o :: places_of (keys rest)) by (unfold places_of; cbn [keys map fst flat_map]; now rewrite Eo).
          rewrite Hps in *. inversion Hndp as [|? ? Hno Hndp']; subst.
          assert (Eerr4 : evals r2 H4 (ow "errors") (Out (RPointer (ec, []), H4))) by (apply own_errors; [exact Ho2|now apply Kept2]).
          fold i' heap2. destruct (go_full es2) eqn:Efull.
          + exists H4. split; [exact K04|]. split; [exact He4|]. split; [apply (others_more [o]); [intros z [<-|[]]; now left|exact Hoth]|]. split; [intros Hem; exfalso; exact (full_not_empty es2 Efull Hem)|].
            cbn [map fst snd]. rule range_break. fold H2 r2. rule run_call; [exact Hargs|exact Hcall|]. destruct He4 as (ers & E4 & Hren). unfold when_full.
            rule run_if_break; [rule eval_full; [exact Eerr4|exact E4]|]. rewrite (rendered_full X printed _ _ Hren), Efull. rule run_break.
          + assert (HI := IH wrest' H4 heap2 es2 HE' KC4 He4 Hndp'
              ltac:(intros id2 Hi2; destruct (Hpend id2 (or_intror Hi2)) as (o2 & Eo2 & Hp2); exists o2; split; [exact Eo2|]; apply (pending_others [o] H heap); [exact Hoth| |exact Hp2];
                    intros [<-|[]]; apply Hno; unfold places_of; apply in_flat_map; exists id2; split; [exact Hi2|rewrite Eo2; now left])).
            assert (Hrun : forall oo, ev (fun n => ranging n r1 (Own "id") (Some (Own "instance value")) body (map (fun kv => (RStr (fst kv), snd kv)) wrest')) H4 oo ->
               ev (fun n => ranging n r1 (Own "id") (Some (Own "instance value")) body (map (fun kv => (RStr (fst kv), snd kv)) ((id, w) :: wrest'))) H oo).
            { intros oo Hoo. cbn [map fst snd]. rule range_step; [|exact Hoo]. fold H2 r2. rule run_call; [exact Hargs|exact Hcall|].
              eapply run_full_no; [exact Eerr4|exact He4|exact Efull|rule run_nil]. }
            destruct (M_GoGen.go_instances X G in_turn c R reg reft rest heap2 es2) as [[heap3 es3]|pn] eqn:Erest; [|apply Hrun; exact HI].
            destruct HI as (H5 & K5 & He5 & Ho5 & Hf5 & Hr5). exists H5. split; [apply (keeps_trans _ _ H4); assumption|]. split; [exact He5|].
            split; [exact (others_trans [o] _ _ _ _ _ _ _ Hoth Ho5)|]. split; [|now apply Hrun].
            intros Hem id2 o2 [<-|Hi2] Eo2; [|now apply Hf5]. cbn [fst] in Eo2 |- *. rewrite Eo in Eo2. injection Eo2 as <-.
            apply (filled_others (places_of (keys rest)) H4 heap2); [exact Ho5|exact K5|exact Hno|exact Lo|]. apply Hfill.
            apply (grown_to_empty es2 es3); [|exact Hem]. eapply gkeeps_instances; [|exact Erest]. intros A kk s0 l0. apply Permutation.Permutation_refl.
      Qed.
    End Class.
    Lemma places_all (rs : list (str * addr)) : NoDup (keys rs) -> flat_map (fun id => match lookup id rs with Some o => [o] | None => [] end) (keys rs) = map snd rs.
    Proof.
      induction rs as [|[id o] rs IHr]; intros Hn; [reflexivity|]. inversion Hn as [|? ? Hi Hn']; subst. cbn [keys map fst snd flat_map lookup]. rewrite str_eqb_refl. cbn [app]. f_equal. rewrite <- IHr by exact Hn'.
      rewrite !flat_map_concat_map. f_equal. apply map_ext_in. intros id' Hi'. destruct (str_eqb id' id) eqn:E; [|reflexivity]. apply str_eqb_eq in E. subst id'. contradiction.
    Qed.
    Lemma not_cell x u : length Hc <= x -> nth_error H1 x = Some u -> (forall zs, u <> RStruct zs) -> ~ In x M.
    Proof.
      intros L E Hu [Hi|[Hi|Hi]]; [lia|lia|]. destruct Hprep as (_ & _ & _ & _ & _ & _ & _ & Hrest0). destruct (Hrest0 Hem1) as ((_ & _ & HFc) & _). rewrite Forall_forall in HFc.
      destruct (HFc x Hi) as (_ & zs & E2). apply (Hu zs). congruence.
    Qed.
    Lemma registries_run : forall cks H heap es, (forall c k, In (c, k) cks -> nth_error (g_classes G) k = Some c) -> NoDup (addresses R (map fst cks)) -> keeps (ec :: cells) H1 H -> errors_at H es ->
      (forall c id o, In c (map fst cks) -> In (id, o) (registry R c) -> pending H heap c o) ->
      match M_GoGen.go_registries X G in_turn (map fst cks) l reft R heap es with
      | Panic _ => forall rest, runs r1 H (flat_map (fill_code G) cks ++ rest) Panicked
      | Done (None, es') => exists H', keeps (ec :: cells) H H' /\ errors_at H' es' /\ go_empty es' = false /\ forall rest, runs r1 H (flat_map (fill_code G) cks ++ rest) (Out (Return, H'))
      | Done (Some heap', es') => exists H', keeps (ec :: cells) H H' /\ errors_at H' es' /\ others (addresses R (map fst cks)) H heap H' heap' /\
          (go_empty es' = true -> forall c id o, In c (map fst cks) -> In (id, o) (registry R c) -> filled H' heap' c id o) /\
          forall rest o, runs r1 H' rest o -> runs r1 H (flat_map (fill_code G) cks ++ rest) o
      end.
    Proof.
      destruct filled_scope as (Ho & KH1 & Ht & Hvars). assert (L1 := kept_long _ KH1).
      assert (Kept2 : forall H', keeps (ec :: cells) H1 H' -> kept H').
      { intros H' K'. apply (kept_more H1 H' _ KH1 K'). intros z [<-|Hz']; [left; right; now left|right; now apply cell_high]. }
      induction cks as [|[c k] cks IH]; intros H heap es Hcks Hnd KH He Hpend.
      - cbn [map M_GoGen.go_registries]. unfold gret. exists H. split; [apply keeps_refl|]. split; [exact He|]. split; [intros o _; split; auto|]. split; [intros _ ? ? ? []|]. auto.
      - assert (Hk : nth_error (g_classes G) k = Some c) by (apply Hcks; now left). assert (Hin : In c (g_classes G)) by (eapply nth_error_In; exact Hk).
        destruct Hprep as (_ & _ & _ & _ & _ & _ & _ & Hrest0). destruct (Hrest0 Hem1) as ((Hlen & Hndc & HFc) & HR & _). clear Hrest0.
        assert (HC := HR c Hin). unfold class_registry in HC.
        destruct (Hvars c Hin) as (krf & ko & km & _ & _ & _ & Cko & Vko & Lko & Ckm & Lkm & Vkm).
        assert (Eok : evals r1 H (of_registry "Ok" c) (Out (RBool (match lookup (key c) l with Some _ => true | None => false end), H))).
        { unfold of_registry. rule eval_var; [exact Cko|]. apply (keeps_cells H1); [exact KH|exact Vko|]. eapply not_cell; [exact Lko|exact Vko|discriminate]. }
        assert (Hadd : addresses R (map fst ((c, k) :: cks)) = map snd (registry R c) ++ addresses R (map fst cks)) by reflexivity. rewrite Hadd in *.
        assert (Hnd1 := proj1 (NoDup_app_parts _ _ Hnd)). assert (Hnd2 : NoDup (addresses R (map fst cks))) by (now apply NoDup_app_parts in Hnd).
        assert (Hdis : forall o, In o (map snd (registry R c)) -> ~ In o (addresses R (map fst cks))).
        { clear - Hnd. induction (map snd (registry R c)) as [|x xs IHx]; intros o []; inversion Hnd; subst; [rewrite in_app_iff in *; tauto|now apply IHx]. }
        (* the first class *)
        assert (Hfirst : match (match lookup (key c) l with Some (JObj m) => M_GoGen.go_instances X G in_turn c R (registry R c) reft m heap | _ => gret heap end) es with
          | Panic _ => forall rest, runs r1 H (fill_code G (c, k) ++ rest) Panicked
          | Done (heap2, es2) => ggrown es es2 /\ exists H2, keeps (ec :: cells) H H2 /\ errors_at H2 es2 /\ others (map snd (registry R c)) H heap H2 heap2 /\
              (go_empty es2 = true -> forall id o, In (id, o) (registry R c) -> filled H2 heap2 c id o) /\
              forall rest o, runs r1 H2 (when_full SReturn :: rest) o -> runs r1 H (fill_code G (c, k) ++ rest) o
          end).
        { destruct (lookup (key c) l) as [[| | | | | |m]|] eqn:Em; try contradiction.
          2: { unfold gret. split; [apply ggrown_refl|]. exists H. split; [apply keeps_refl|]. split; [exact He|]. split; [intros o _; split; auto|]. destruct HC as [_ Er]. rewrite Er. split; [intros _ ? ? []|].
               intros rest o Hr. unfold fill_code. cbn [app]. rule run_if; [exact Eok|rule run_nil|exact Hr]. }
          destruct HC as (ra & Era & Lra & Eents & Ekeys & Hregc). destruct (Vkm m eq_refl) as (w & Ew & Vw).
          assert (Hl := entries_lookup _ _ _ _ (key c) HJ). rewrite Em in Hl. destruct Hl as (w' & Ew' & Hw). rewrite Ew in Ew'. injection Ew' as <-.
          assert (Hw1 := json_later _ _ Hw). apply json_obj in Hw1 as (bm & wm & -> & Hbm & Ebm & Hndm & HEm).
          assert (Ndk : NoDup (keys (registry R c))) by (now rewrite Ekeys).
          assert (Epl : places_of c (keys m) = map snd (registry R c)) by (unfold places_of; rewrite <- Ekeys; now apply places_all).
          assert (Hran : ranged X (RMap bm) H = Out (map (fun kv => (RStr (fst kv), snd kv)) wm, H)).
          { unfold ranged, andthen. rewrite (entries_of X _ _ wm); [reflexivity|]. now apply (keeps_cells H1). }
          assert (Emap : evals r1 H (of_registry "Map" c) (Out (RMap bm, H))).
          { unfold of_registry. rule eval_var; [exact Ckm|]. apply (keeps_cells H1); [exact KH|exact Vw|]. eapply not_cell; [exact Lkm|exact Vw|discriminate]. }
          assert (HI := instances_run c k Hk m Em m wm H heap es HEm KH He ltac:(now rewrite Epl)
            ltac:(intros id Hid; rewrite <- Ekeys in Hid; apply in_map_iff in Hid as ([id' o] & E & Hio); cbn in E; subst id'; exists o; split; [now apply In_lookup|]; apply (Hpend c id o); [now left|exact Hio])).
          destruct (M_GoGen.go_instances X G in_turn c R (registry R c) reft m heap es) as [[heap2 es2]|pn] eqn:Ei.
          - destruct HI as (H2 & K2 & He2 & Ho2 & Hf2 & Hr2). split; [eapply gkeeps_instances; [|exact Ei]; intros A kk s0 l0; apply Permutation.Permutation_refl|].
            exists H2. split; [exact K2|]. split; [exact He2|]. rewrite Epl in Ho2. split; [exact Ho2|]. split.
            + intros Hem id o Hio. apply Hf2; [exact Hem|rewrite <- Ekeys; now apply (in_map fst) in Hio|now apply In_lookup].
            + intros rest o Hr. unfold fill_code. cbn [app]. rule run_if; [exact Eok| |exact Hr]. rule run_range; [exact Emap|exact Hran|exact Hr2|rule run_nil].
          - intros rest. unfold fill_code. cbn [app]. rule run_if_panics; [exact Eok|]. rule run_range_panics; [exact Emap|exact Hran|exact HI]. }
        cbn [map fst M_GoGen.go_registries flat_map]. unfold gbind. change (in_turn jval 2 (gslash reft (key c))) with (fun x : list (str * jval) => x). cbn beta.
        change (match lookup (field (c_plural c)) R with Some r => r | None => [] end) with (registry R c).
        destruct ((match lookup (key c) l with Some (JObj m) => M_GoGen.go_instances X G in_turn c R (registry R c) reft m heap | _ => gret heap end) es) as [[heap2 es2]|pn] eqn:E1.
        + destruct Hfirst as (Hgr & H2 & K2 & He2 & Ho2 & Hf2 & Hr2).
          assert (KH2 : keeps (ec :: cells) H1 H2) by (apply (keeps_trans _ _ H); assumption).
          assert (Eerr : evals r1 H2 (ow "errors") (Out (RPointer (ec, []), H2))) by (apply own_errors; [exact Ho|now apply Kept2]).
          destruct (go_full es2) eqn:Efull.
          * exists H2. split; [exact K2|]. split; [exact He2|]. split; [destruct (go_empty es2) eqn:Hem; [exfalso; exact (full_not_empty es2 Efull Hem)|reflexivity]|].
            intros rest. rewrite <- app_assoc. apply Hr2. destruct He2 as (ers & E2 & Hren). unfold when_full. rule run_if_return; [rule eval_full; [exact Eerr|exact E2]|].
            rewrite (rendered_full X printed _ _ Hren), Efull. rule run_return.
          * assert (HI := IH H2 heap2 es2 ltac:(intros d j Hd; apply Hcks; now right) Hnd2 KH2 He2
              ltac:(intros d id o Hd Hio; apply (pending_others (map snd (registry R c)) H heap); [exact Ho2| |apply (Hpend d id o); [now right|exact Hio]];
                    intros Hi; apply (Hdis o Hi); unfold addresses; apply in_flat_map; exists d; split; [exact Hd|now apply (in_map snd) in Hio])).
            destruct (M_GoGen.go_registries X G in_turn (map fst cks) l reft R heap2 es2) as [[[heap3|] es3]|pn] eqn:E3.
            -- destruct HI as (H3 & K3 & He3 & Ho3 & Hf3 & Hr3). exists H3. split; [apply (keeps_trans _ _ H2); assumption|]. split; [exact He3|].
               split; [exact (others_trans _ _ _ _ _ _ _ _ Ho2 Ho3)|]. split.
               ++ intros Hem d id o [<-|Hd] Hio; [|now apply (Hf3 Hem)]. assert (Hem2 : go_empty es2 = true).
                  { apply (grown_to_empty es2 es3); [|exact Hem]. eapply gkeeps_registries; [|exact E3]. intros A kk s0 l0. apply Permutation.Permutation_refl. }
                  destruct (Hpend c id o ltac:(now left) Hio) as (_ & Lo & _).
                  apply (filled_others (addresses R (map fst cks)) H2 heap2); [exact Ho3|exact K3|apply Hdis; now apply (in_map snd) in Hio|exact Lo|now apply Hf2].
               ++ intros rest o Hr. rewrite <- app_assoc. apply Hr2. eapply run_full_no; [exact Eerr|exact He2|exact Efull|]. apply Hr3, Hr.
            -- destruct HI as (H3 & K3 & He3 & Hem3 & Hr3). exists H3. split; [apply (keeps_trans _ _ H2); assumption|]. split; [exact He3|]. split; [exact Hem3|].
               intros rest. rewrite <- app_assoc. apply Hr2. eapply run_full_no; [exact Eerr|exact He2|exact Efull|]. apply Hr3.
            -- intros rest. rewrite <- app_assoc. apply Hr2. eapply run_full_no; [exact Eerr|exact He2|exact Efull|]. apply HI.
        + intros rest. rewrite <- app_assoc. apply Hfirst.
    Qed.
    (** ** The graph in the memory *)
    Section Shown.
      Variable H6 : mem.
      Variable heap : list (gobj (g_time X)).
      Hypothesis Hfilled : forall c id o, In c (g_classes G) -> In (id, o) (registry R c) -> filled H6 heap c id o.
      Variable lo : nat.
      Lemma known_shown o n : known G R o -> shown X G heap (inst cells) H6 (TClass n) (RPointer (nth o cells 0, [])) (GRef o).
      Proof.
        intros (c & id & Hin & E). apply lookup_In in E. destruct (Hfilled c id o Hin E) as (i & ws & A1 & A2 & A3 & A4 & A5 & _).
        apply (shown_ref X G heap (inst cells) H6 n o i ws A1 A4). now rewrite A3.
      Qed.
      Fixpoint held_shown t w v (h : held X G R (inst cells) H6 lo t w v) {struct h} : shown X G heap (inst cells) H6 t w v
      with held_property_shown p w v (h : held_property H6 lo p w v) {struct h} : shown_property X G heap (inst cells) H6 p w v.
      Proof.
        - destruct h as [| | | | | | | | | |t mn mx x ws vs Ha E HF|t x ws vs Ha E Hnd HF|m o Ho|m e ws vs Ef Hf]; try (constructor; fail).
          + apply shown_array with (ws := ws); [exact E|]. clear E. induction HF; constructor; auto.
          + apply shown_map with (ws := ws); [exact E|exact Hnd|]. clear E Hnd. induction HF as [|? ? ? ? [E Hh] HF IH]; constructor; auto.
          + now apply known_shown.
          + apply shown_embed with (e := e); [assumption|]. intros p Hp. destruct (Hf p Hp) as (w & v & E1 & E2 & Hh). exists w, v. auto.
        - destruct h as [p w v Eo Hh|p w v Eo Ep Hh|p x w v Eo Ep Hx E Hh|p Eo].
          + apply shown_required; auto.
          + apply shown_nillable; auto.
          + apply shown_optional with (w := w); auto. unfold at_place. cbn. now rewrite E.
          + destruct (is_pointer_type (p_type p)) eqn:Ep; [|now apply shown_none]. apply shown_nillable; [exact Eo|exact Ep|]. destruct (p_type p); try discriminate; constructor.
      Qed.
    End Shown.
    Lemma filled_keeps (H H' : mem) heap c id o : keeps [a; ec] H H' -> o < length cells -> filled H heap c id o -> filled H' heap c id o.
    Proof.
      intros K Lo (i & ws & A1 & A2 & A3 & A4 & A5 & A6). exists i, ws. assert (Hx : In (nth o cells 0) cells) by (now apply nth_In). destruct (cell_high _ Hx) as (X1 & X2 & X3 & X4).
      repeat (split; [assumption|]). split; [apply K; [exact A4|intros [E|[E|[]]]; congruence]|]. split; [exact A5|].
      intros p Hp. destruct (A6 p Hp) as (w & v & B1 & B2 & B3). exists w, v. split; [exact B1|]. split; [exact B2|].
      destruct filled_scope as (_ & KH1 & _). assert (L1 := kept_long _ KH1).
      revert B3. apply (P_GoRunValue.held_property_keeps X G Hc ec Lec R (inst cells) [a; ec]); [exact K| |lia]. intros y [<-|[<-|[]]]; lia.
    Qed.

    Hypothesis Hfresh : forall p, In p (g_props G) -> exists w, lookup (field (p_name p)) ws0 = Some w /\ fresh_field p w.

    Definition rest_model : GM (option (gograph (g_time X))) :=
      gdo r <- M_GoGen.go_registries X G in_turn (g_classes G) l reft R heap1;
      match r with
      | None => gret None
      | Some heap' =>
          gdo fields <- go_properties X (g_props G) (gmembers_of X G in_turn R (JObj l)) reft (zero_fields X (g_props G));
          gret (Some (GoGraph fields R heap'))
      end.
    Lemma numbered_fst : map fst (numbered_classes G) = g_classes G.
    Proof. unfold numbered_classes. apply combine_fst. now rewrite seq_length. Qed.
    Lemma numbered_at (cs : list cls) : forall s0 c k, In (c, k) (combine cs (List.seq s0 (length cs))) -> s0 <= k /\ nth_error cs (k - s0) = Some c.
    Proof.
      induction cs as [|d cs IH]; intros s0 c k Hi; cbn in Hi; [destruct Hi|]. destruct Hi as [E|Hi].
      - injection E as -> ->. split; [lia|]. now rewrite Nat.sub_diag.
      - apply IH in Hi as [L E]. split; [lia|]. replace (k - s0) with (S (k - S s0)) by lia. exact E.
    Qed.

    Lemma rest_runs :
      match rest_model es1 with
      | Panic _ => runs r1 H1 (flat_map (fill_code G) (numbered_classes G) ++ parse_properties_code G (registry_field (ow "target")) (g_props G) 0 ++ [SReturn]) Panicked
      | Done (res, es') => exists H', keeps M H1 H' /\ errors_at H' es' /\
          runs r1 H1 (flat_map (fill_code G) (numbered_classes G) ++ parse_properties_code G (registry_field (ow "target")) (g_props G) 0 ++ [SReturn]) (Out (Return, H')) /\
          (go_empty es' = true -> exists gg, res = Some gg /\ shown_graph X G (inst cells) H' (a, path) gg)
      end.
    Proof.
      destruct filled_scope as (Ho & KH1 & Ht & Hvars). assert (L1 := kept_long _ KH1). assert (Hprep' := Hprep).
      destruct Hprep' as (_ & _ & _ & He1 & Hws & _ & _ & Hrest0). destruct (Hrest0 Hem1) as ((Hlen & Hndc & HFc) & HR & Hnda). clear Hrest0.
      assert (Hreg : forall c id o, In c (g_classes G) -> In (id, o) (registry R c) -> pending H1 heap1 c o).
      { intros c id o Hin Hio. assert (HC := HR c Hin). unfold class_registry in HC. destruct (lookup (key c) l) as [[| | | | | |m]|]; try contradiction.
        - destruct HC as (ra & _ & _ & _ & _ & HC). destruct (HC id o Hio) as (A1 & A2 & A3). split; [exact A1|]. split; [exact A2|exact A3].
        - destruct HC as [_ E]. rewrite E in Hio. destruct Hio. }
      assert (HG := registries_run (numbered_classes G) H1 heap1 es1
        ltac:(intros c k Hi; apply numbered_at in Hi as [_ Hi]; now rewrite Nat.sub_0_r in Hi) ltac:(rewrite numbered_fst; exact Hnda) (keeps_refl _ _) He1 ltac:(rewrite numbered_fst; exact Hreg)).
      rewrite numbered_fst in HG. unfold rest_model, gbind. destruct (M_GoGen.go_registries X G in_turn (g_classes G) l reft R heap1 es1) as [[[heap2|] es2]|pn] eqn:Ereg; [| |apply HG].
      2: { destruct HG as (H2 & K2 & He2 & Hem2 & Hr2). unfold gret. exists H2. split; [revert K2; apply keeps_more; intros z Hz; now right|]. split; [exact He2|]. split; [apply Hr2|]. congruence. }
      destruct HG as (H2 & K2 & He2 & Ho2 & Hf2 & Hr2).
      assert (KM2 : keeps M H1 H2) by (revert K2; apply keeps_more; intros z Hz; now right).
      assert (HaM : In a M) by now left.
      assert (Hlow : forall x, x < length Hc -> ~ In x W -> ~ In x M).
      { intros x Lx Hx [E|[E|Hi]]; [apply Hx; now left|apply Hx; right; now left|apply cell_high in Hi; lia]. }
      assert (HT2 : target_is H2 ws1) by (apply (target_keeps H1 H2 _ ws1 Ht K2); intros [E|Hi]; [now apply Hne|apply cell_high in Hi; lia]).
      destruct HT2 as (cv & Ecv & Epart).
      assert (HP := P_GoRunValue.properties_run X printed duration_to structs functions globals G H1 M ec ltac:(right; now left) ltac:(lia) R (inst cells) mv Hzero
        (registry_field (ow "target")) (fun c => In c (g_classes G)) reft l b wsall
        (Hlow b (nth_some_lt _ _ _ Vb) HbW) ltac:(apply KH1; [exact Vb|exact HbW]) (entries_later _ _ HJ)
        ltac:(apply Forall_forall; intros kj _; apply (P_GoRunValue.value_runs_all X printed duration_to structs functions globals G H1 M ec ltac:(right; now left) ltac:(lia) R (inst cells) mv registries_known Hzero Hembeds))
        a path (or_introl HaM) Hne (g_props G) r1 H2 ws1 KM2).
      assert (Hreach : forall r' H' ws, grows 0 r1 r' -> P_GoRunValue.reach X ec a path (g_props G) H2 ws1 H' ws ->
        evals r' H' (ow "errors") (Out (RPointer (ec, []), H')) /\ evals r' H' (ow "cast") (Out (RMap b, H')) /\
        evals r' H' (ow "target") (Out (RPointer (a, path), H')) /\ evals r' H' (ow "ref") (Out (RStr reft, H')) /\ forall c, In c (g_classes G) -> evals r' H' (registry_field (ow "target") c) (Out (mv c, H'))).
      { intros r' H' ws G' (K' & (cv' & Ecv' & Epart') & Hsame). destruct Ho as (C1 & C2 & C3 & C4 & C5). destruct Hcells as (Lok & Hok1 & Hok2 & Hkr & Hkt & Hke & Hkc).
        assert (Hkeep : forall x k u, cell_of r1 (Own x) = Some k -> ~ In k W -> nth_error Hc k = Some u -> evals r' H' (XVar (Own x)) (Out (u, H'))).
        { intros x k u D1 D2 D3. rule eval_var; [apply (grows_cell 0 r1); [apply stable_own|exact D1|exact G']|]. assert (Lk := nth_some_lt _ _ _ D3).
          apply K'; [|intros [E|[E|[]]]; apply D2; [now left|right; now left]]. apply KM2; [apply KH1; [exact D3|exact D2]|now apply Hlow]. }
        assert (Etg : evals r' H' (ow "target") (Out (RPointer (a, path), H'))) by (now apply (Hkeep _ kt)).
        split; [now apply (Hkeep _ ke)|]. split; [now apply (Hkeep _ kc)|]. split; [exact Etg|]. split; [now apply (Hkeep _ kr)|].
        intros c Hin. rule eval_field_pointer; [exact Etg|]. unfold at_place. cbn [fst snd]. rewrite Ecv', (part_app path _ _ _ Epart'). cbn [part]. change (ucamel (c_plural c)) with (fld c).
        assert (Hnot : ~ In (fld c) (fields_of (g_props G))).
        { intros Hi. apply (in_map (fun c => fld c)) in Hin. revert Hin Hi. clear - Hgfields. revert Hgfields. generalize (fields_of (g_props G)). intros fs. induction (map (fun c0 : cls => fld c0) (g_classes G)) as [|x xs IHx]; intros Hn Hin Hi; [destruct Hin|].
          inversion Hn as [|? ? Hx Hn']; subst. destruct Hin as [->|Hin]; [apply Hx, in_or_app; now right|now apply IHx]. }
        rewrite (Hsame _ Hnot). unfold mv. assert (HC := HR c Hin). unfold class_registry in HC.
        destruct (lookup (key c) l) as [[| | | | | |md]|]; try contradiction; [destruct HC as (rd & -> & _)|destruct HC as [-> _]]; reflexivity. }
      specialize (HP Hreach (g_props G) 0 r1 H2 ws1 cv (zero_fields X (g_props G)) es2 (incl_refl _) ltac:(now apply NoDup_app_parts in Hgfields) Hgusable (grows_refl _ _)
        ltac:(split; [apply keeps_refl|split; [now exists cv|reflexivity]]) Ecv Epart He2).
      assert (Hff : forall p, In p (g_props G) -> (exists w0, lookup (field (p_name p)) ws1 = Some w0 /\ fresh_field p w0) /\ lookup (field (p_name p)) (zero_fields X (g_props G)) = Some (zero_field X p)).
      { intros p Hp. split; [|apply zero_fields_lookup; [exact Hp|now apply NoDup_app_parts in Hgfields]]. rewrite Hws; [now apply Hfresh|]. intros Hi. 
        apply (in_map (fun p => field (p_name p))) in Hp. revert Hp Hi. clear - Hgfields. revert Hgfields. generalize (fields_of (g_props G)). intros fs. induction (map (fun c0 : cls => fld c0) (g_classes G)) as [|x xs IHx]; intros Hn Hin Hi; [destruct Hi|].
        inversion Hn as [|? ? Hx Hn']; subst. destruct Hi as [->|Hi]; [apply Hx, in_or_app; now right|now apply IHx]. }
      specialize (HP Hff). change (gmembers_of X G in_turn R (JObj l)) with (map (fun kv => (fst kv, go_value X G in_turn R (snd kv))) l).
      destruct (go_properties X (g_props G) _ reft (zero_fields X (g_props G)) es2) as [[fields es3]|pn] eqn:Eprops; [|apply Hr2, HP].
      destruct HP as (H3 & cv3 & ws3 & K3 & He3 & Ecv3 & Ew3 & Hsame3 & Hh3 & Hr3). unfold gret. exists H3.
      split; [apply (keeps_trans _ _ H2); [exact KM2|]; revert K3; apply keeps_more; intros z [<-|[<-|[]]]; [now left|right; now left]|]. split; [exact He3|].
      split; [apply Hr2, Hr3|]. intros Hem. exists (GoGraph fields R heap2). split; [reflexivity|].
      assert (Hem2 : go_empty es2 = true). { apply (grown_to_empty es2 es3); [|exact Hem]. eapply gkeeps_properties; [|exact Eprops]. apply (members_of_keep X G in_turn) with (v := JObj l). intros A kk s0 l0. apply Permutation.Permutation_refl. }
      assert (Hfilled : forall c id o, In c (g_classes G) -> In (id, o) (registry R c) -> filled H3 heap2 c id o).
      { intros c id o Hin Hio. apply (filled_keeps H2); [exact K3|now destruct (Hreg c id o Hin Hio) as (_ & Lo & _)|]. now apply Hf2. }
      exists ws3. split; [|split].
      - unfold at_place. cbn [fst snd]. rewrite Ecv3. now apply (part_put path cv).
      - intros p Hp. destruct (Hh3 Hem p Hp) as (w & v & A1 & A2 & A3). exists w, v. split; [exact A1|]. split; [exact A2|]. cbn [gg_heap]. eapply held_property_shown; [exact Hfilled|exact A3].
      - intros c Hin. cbn [gg_heap gg_registries]. change (match lookup (field (c_plural c)) R with Some r => r | None => [] end) with (registry R c).
        assert (Hnot : ~ In (fld c) (fields_of (g_props G))).
        { intros Hi. apply (in_map (fun c => fld c)) in Hin. revert Hin Hi. clear - Hgfields. revert Hgfields. generalize (fields_of (g_props G)). intros fs. induction (map (fun c0 : cls => fld c0) (g_classes G)) as [|x xs IHx]; intros Hn Hin Hi; [destruct Hin|].
          inversion Hn as [|? ? Hx Hn']; subst. destruct Hin as [->|Hin]; [apply Hx, in_or_app; now right|now apply IHx]. }
        rewrite (Hsame3 _ Hnot). assert (HC := HR c Hin). unfold class_registry in HC.
        destruct (lookup (key c) l) as [[| | | | | |m]|] eqn:Em; try contradiction.
        + destruct HC as (ra & Era & Lra & Eents & Ekeys & _). exists (RMap ra). split; [exact Era|]. split.
          * rewrite Ekeys. assert (Hl := entries_lookup _ _ _ _ (key c) HJ). rewrite Em in Hl. destruct Hl as (w' & _ & Hw). apply json_obj in Hw as (? & ? & _ & _ & _ & Hn & _). exact Hn.
          * right. exists ra. split; [reflexivity|]. split.
            -- apply K3; [|intros [E|[E|[]]]; lia]. apply KM2; [exact Eents|]. eapply not_cell; [exact Lra|exact Eents|discriminate].
            -- intros id o Hio. destruct (Hfilled c id o Hin Hio) as (i & ws & A1 & A2 & A3 & A4 & A5 & A6). exists i, ws. split; [exact A1|]. split; [exact A4|]. split; [now rewrite A3|].
               intros p Hp. destruct (A6 p Hp) as (w & v & B1 & B2 & B3). exists w, v. split; [exact B1|]. split; [exact B2|]. eapply held_property_shown; [exact Hfilled|exact B3].
        + destruct HC as [E1 E2]. exists RNil. split; [exact E1|]. rewrite E2. split; [constructor|]. left. now split.
    Qed.
  End Fill.

  Hypothesis Hfresh : forall p, In p (g_props G) -> exists w, lookup (field (p_name p)) ws0 = Some w /\ fresh_field p w.
  Notation code := (flat_map (allocate_code G) (g_classes G) ++ (match g_classes G with [] => [] | _ => [SIf (XNot (meth (ow "errors") "Empty" [])) [SReturn] []] end) ++
       flat_map (fill_code G) (numbered_classes G) ++ parse_properties_code G (registry_field (ow "target")) (g_props G) 0 ++ [SReturn]).
  Lemma body_runs r0 es0 : own r0 -> target_is Hc ws0 -> errors_at Hc es0 -> go_empty es0 = true ->
    match go_graph_from X G in_turn (JObj l) reft es0 with
    | Panic _ => runs r0 Hc code Panicked
    | Done (res, es') => exists H', keeps W Hc H' /\ errors_at H' es' /\ runs r0 Hc code (Out (Return, H')) /\
        (go_empty es' = true -> exists gg ins, res = Some gg /\ shown_graph X G ins H' (a, path) gg)
    end.
  Proof.
    intros Ho Ht He Hem. unfold go_graph_from. rewrite Hem. cbn [negb].
    destruct (allocate_all (g_classes G) [] r0 Hc ws0 [] [] [] es0 eq_refl) as (R & heap & es1 & r1 & H1 & ws1 & cells & E1 & HP & Hr1).
    { split; [exact Ho|]. split; [apply keeps_refl|]. split; [exact Ht|]. split; [exact He|]. split; [reflexivity|]. split; [reflexivity|]. split; [intros ? []|]. intros _. split; [|split; [intros ? []|constructor]].
      split; [reflexivity|]. split; constructor. }
    unfold gbind at 1. rewrite E1. assert (HP' := HP). destruct HP' as (Ho1 & K1 & Ht1 & He1 & _).
    assert (Echeck : forall rest o, (if (match g_classes G with [] => false | _ => true end) && negb (go_empty es1) then o = Out (Return, H1) else runs r1 H1 rest o) ->
       runs r1 H1 ((match g_classes G with [] => [] | _ => [SIf (XNot (meth (ow "errors") "Empty" [])) [SReturn] []] end) ++ rest) o).
    { intros rest o Hr. destruct (g_classes G); [exact Hr|]. cbn [andb app] in *. destruct He1 as (ers & E & Hren).
      assert (Eem : evals r1 H1 (XNot (meth (ow "errors") "Empty" [])) (Out (RBool (negb (go_empty es1)), H1))).
      { rewrite <- (rendered_empty X printed _ _ Hren). rule eval_not. rule eval_empty; [now apply own_errors|exact E]. }
      destruct (go_empty es1); cbn [negb] in *; [rule run_if; [exact Eem|rule run_nil|exact Hr]|]. subst o. rule run_if_return; [exact Eem|]. rule run_return. }
    destruct ((match g_classes G with [] => false | _ => true end) && negb (go_empty es1)) eqn:Ech.
    - exists H1. split; [exact K1|]. split; [exact He1|]. split; [apply Hr1, Echeck; reflexivity|]. intros E. rewrite E in Ech. now rewrite andb_false_r in Ech.
    - assert (Hem1 : go_empty es1 = true).
      { destruct (g_classes G); [|cbn in Ech; now destruct (go_empty es1)]. cbn in E1. unfold gret in E1. injection E1 as _ _ <-. exact Hem. }
      assert (HR := rest_runs r1 H1 ws1 R heap cells es1 HP Hem1 Hfresh). unfold rest_model in HR.
      destruct ((gdo r <- M_GoGen.go_registries X G in_turn (g_classes G) l reft R heap; _) es1) as [[res es']|pn].
      + destruct HR as (H2 & K2 & He2 & Hr2 & Hs2). exists H2. split.
        * apply (kept_more H1 H2 _ K1 K2). intros x [<-|[<-|Hi]]; [left; now left|left; right; now left|right]. exact (proj1 (cell_high r1 H1 ws1 R heap cells es1 HP Hem1 x Hi)).
        * split; [exact He2|]. split; [apply Hr1, Echeck, Hr2|]. intros E. destruct (Hs2 E) as (gg & -> & Hs). now exists gg, (inst cells).
      + apply Hr1, Echeck, HR.
  Qed.
End Root.
