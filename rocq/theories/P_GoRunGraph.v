(** Running the generated Go serializer of the graph. *)
From Coq Require Import String List Arith NArith ZArith Bool Lia Floats.SpecFloat.
From Verif Require Import Base M_Naming M_Schema M_Dec M_Strftime M_Duration M_GoGen M_AutoID S_Scope M_Scope M_GoScope P_Common P_AutoID P_Scope P_BlockScope P_GoScope P_GoSer
  S_Compare S_GoTyping M_GoTyping P_GoTyping.
From Verif Require Import S_GoRun S_GoMemory P_GoRun P_GoRunSer.
Import ListNotations.
Open Scope list_scope.
Local Open Scope nat_scope.

(** Only a registry can fail without a panic. *)
Section Panics.
  Variable X : gext.
  Variable G : graph.
  Variable heap : list (gobj (g_time X)).
  Definition only_panics {A} (s : sout A) : Prop := match s with SFail (SError _ _) => False | _ => True end.
  Lemma only_panics_bind {A B} (s : sout A) (f : A -> sout B) : only_panics s -> (forall a, only_panics (f a)) -> only_panics (sbind s f).
  Proof. intros H1 H2. destruct s as [a|e]; [apply H2|exact H1]. Qed.
  Lemma properties_panic ps : forall (o : gattributes X) js, (forall k v s, In (k, (v, s)) o -> forall t, only_panics (s t)) -> only_panics (go_ser_properties X ps o js).
  Proof.
    induction ps as [|p ps IH]; intros o js Ho; [exact I|]. cbn [go_ser_properties]. apply only_panics_bind; [|intros a; now apply IH].
    unfold go_ser_property. unfold gattributes, gserializer in *. destruct (lookup (field (p_name p)) o) as [[v s]|] eqn:E; [|exact I]. apply lookup_In in E.
    assert (HS : only_panics (sbind (s (p_type p)) (fun x => SOk (upsert (p_json p) x js)))) by (apply only_panics_bind; [exact (Ho _ _ _ E _)|intros a; exact I]).
    destruct (p_optional p); [destruct v|]; try exact HS; exact I.
  Qed.
  Lemma ser_panics : forall v t, only_panics (go_ser_value X G heap v t).
  Proof.
    induction v as [v Hv|vs IH|vs IH|vs IH] using goval_ind'; intros t.
    - destruct v; try contradiction; destruct t; cbn; try exact I; match goal with |- context [match ?x with _ => _ end] => destruct x; exact I end.
    - destruct t; try exact I; cbn [go_ser_value]; [|match goal with |- context [find_embed G ?x] => destruct (find_embed G x); exact I end]. apply only_panics_bind; [|intros a; exact I]. induction IH as [|v vs Hv _ IHl]; [exact I|]. cbn [map go_ser_items].
      apply only_panics_bind; [apply Hv|]. intros a. apply only_panics_bind; [exact IHl|]. intros b. exact I.
    - destruct t; try exact I; cbn [go_ser_value]; [|match goal with |- context [find_embed G ?x] => destruct (find_embed G x); exact I end]. apply only_panics_bind; [|intros a; exact I]. induction IH as [|[k v] vs Hv _ IHl]; [exact I|]. cbn [map go_ser_entries fst snd].
      apply only_panics_bind; [apply Hv|]. intros a. apply only_panics_bind; [exact IHl|]. intros b. exact I.
    - destruct t; try exact I. cbn [go_ser_value]. match goal with |- context [find_embed G ?x] => destruct (find_embed G x); [|exact I] end. apply only_panics_bind; [|intros a; exact I].
      apply properties_panic. intros k v s Hin t. apply in_map_iff in Hin as ((k' & v') & E & Hin). cbn [fst snd] in E. injection E as <- <- <-.
      rewrite Forall_forall in IH. exact (IH _ Hin t).
  Qed.
  Lemma fields_panic ps vs js : only_panics (go_ser_properties X ps (gattributes_of X G heap vs) js).
  Proof.
    apply properties_panic. intros k v s Hin t. apply in_map_iff in Hin as ((k' & v') & E & Hin). cbn [fst snd] in E. injection E as <- <- <-. apply ser_panics.
  Qed.
End Panics.

Section Graph.
  Variable X : gext.
  Variable printed : str -> list (rv (g_time X)) -> str.
  Variable duration_from : str -> option Z.
  Variable structs : list (str * list (str * gtype)).
  Variable functions : list gfunction.
  Variable globals : list (str * str).
  Variable G : graph.
  Notation val := (rv (g_time X)).
  Notation mem := (memory X).
  Notation eval := (eval X printed duration_from go_dur_to structs functions globals).
  Notation called := (S_GoRun.call X printed duration_from go_dur_to structs functions globals).
  Notation exec := (exec X printed duration_from go_dur_to structs functions globals).
  Notation ranging := (ranging X printed duration_from go_dur_to structs functions globals).
  Notation library := (library X printed duration_from go_dur_to).
  Notation ev := (ev X).
  Notation evals r H e o := (ev (fun n => eval n r e) H o).
  Notation runs r H ss o := (ev (fun n => exec n r ss) H o).
  Notation serializes := (serializes X printed duration_from functions).
  Hypothesis Hembeds : forall n e, find_embed G n = Some e -> serializes n (e_props e).
  Hypothesis Hclasses : forall c, In c (g_classes G) -> serializes (c_name c) (c_props c).

  Variable heap : list (gobj (g_time X)).
  Variable inst : addr -> nat.
  Variable H0 : mem.
  Notation shown_fields := (shown_fields X G heap inst H0).
  Notation shown_registry := (shown_registry X G heap inst H0).
  Notation in_body := (in_body X H0).

  (** The error for an instance with another identifier *)
  Definition other_id (c : cls) (id got : str) : val :=
    RError (printed (s_ "expected the instance of " ++ ucamel (c_name c) ++ s_ " to have the ID %s according to the registry, but got: %s") [RStr id; RStr got]).

  Lemma in_body_change W H1 l ws tc m r H r' H' : keeps W H H' -> (forall a, In a W -> a = m \/ length H1 <= a) ->
    cell_of r' (Own "instance") = cell_of r (Own "instance") -> cell_of r' (Own "target") = cell_of r (Own "target") ->
    in_body H1 l ws tc m r H -> in_body H1 l ws tc m r' H'.
  Proof.
    intros [L K] HW E1 E2 (A & B & C & D & E & F & (ic & I1 & I2 & I3) & (T1 & T2 & T3)). destruct B as [LB B]. split; [exact A|]. split.
    - split; [lia|]. intros a v Ha Hn. apply K; [now apply B|]. intros Hin. apply HW in Hin as [->|Hin]; [apply Hn; now left|]. apply nth_some_lt in Ha. lia.
    - repeat (split; [assumption|]). split; [exists ic; rewrite E1; auto|]. rewrite E2. auto.
  Qed.

  Section Registry.
    Variable c : cls.
    Hypothesis Hc : In c (g_classes G).
    Variables (H1 : mem) (l : place) (ws : list (str * val)) (tc m ec : nat).
    Variable r : scope.
    Variable rw : nat.
    Variable reg : list (str * addr).
    Hypothesis Hreg : lookup (ucamel (c_plural c)) ws = Some (RMap rw).
    Hypothesis Hnd : NoDup (keys reg).
    Hypothesis Hrw : nth_error H0 rw = Some (REntries (map (fun ka => (fst ka, RPointer (inst (snd ka), []))) reg)).
    Hypothesis Hinst : forall k o, In (k, o) reg -> exists i ws, nth_error heap o = Some i /\ nth_error H0 (inst o) = Some (RStruct ws) /\
       lookup (s_ "ID") ws = Some (RStr (o_id i)) /\ shown_fields (c_props c) ws (o_fields i).
    Hypothesis Hec : cell_of r (Own "err") = Some ec.
    Hypothesis Hec1 : ec < length H1.
    Hypothesis Hecm : ec <> m.
    Variable t : nat.
    Hypothesis Ht : length H1 <= t.
    Hypothesis HH : length H0 <= length H1.
    Hypothesis Hec0 : length H0 <= ec.
    Notation instance := (For "instance" (c_name c)).
    Notation target := (For "target" (c_name c)).
    Notation r1 := ((target, S t) :: r).
    Notation body := [SDefine [Some instance] (XIndex (registry_field (ow "instance") c) (ow "id"));
           SIf (XEqual IsUnequal (ow "id") (XField (XVar instance) (s_ "ID")))
             [SAssign [ow "err"] (M_GoTyping.call "fmt.Errorf"
                [XText (s_ "expected the instance of " ++ ucamel (c_name c) ++ s_ " to have the ID %s according to the registry, but got: %s");
                 ow "id"; XField (XVar instance) (s_ "ID")]);
              SReturn] [];
           SAssign [XIndex (XVar target) (ow "id")] (XCall (go_to (c_name c)) [XVar instance])].

    Lemma registry_loop : forall rest js es H,
      incl rest reg -> NoDup (keys rest) -> (forall k, In k (keys rest) -> ~ In k (keys js)) ->
      in_body H1 l ws tc m r H -> keeps [] H0 H -> nth_error H t = Some (REntries es) -> nth_error H (S t) = Some (RMap t) -> entries_read H (S t) js es ->
      match go_ser_registry X G heap c rest with
      | SOk js' => exists H' es', keeps [t] H H' /\ nth_error H' t = Some (REntries es') /\ entries_read H' (S t) (js ++ js') es' /\
          ev (fun n => ranging n r1 (Own "id") None body (map (fun ka => (RStr (fst ka), RPointer (inst (snd ka), []))) rest)) H (Out (Next, H'))
      | SFail (SError id got) => exists H', keeps [t; ec] H H' /\ nth_error H' ec = Some (other_id c id got) /\
          ev (fun n => ranging n r1 (Own "id") None body (map (fun ka => (RStr (fst ka), RPointer (inst (snd ka), []))) rest)) H (Out (Return, H'))
      | SFail (SPanic _) => ev (fun n => ranging n r1 (Own "id") None body (map (fun ka => (RStr (fst ka), RPointer (inst (snd ka), []))) rest)) H Panicked
      end.
    Proof.
      induction rest as [|[k o] rest IH]; intros js es H Hincl Hndr Hdis Hb K0 Et Et' HR; cbn [map go_ser_registry fst snd].
      - exists H, es. split; [apply keeps_refl|]. split; [exact Et|]. split; [rewrite app_nil_r; exact HR|]. apply range_end.
      - assert (Hin : In (k, o) reg) by (apply Hincl; now left). destruct (Hinst _ _ Hin) as (i & iws & Ei & Eo & Eid & Hf). rewrite Ei.
        cbn [keys map fst] in Hndr, Hdis. inversion Hndr as [|? ? Hk Hndr']; subst.
        set (Ha := H ++ [RStr k]). set (Hb2 := Ha ++ [RPointer (inst o, [])]).
        set (ra := (Own "id", length H) :: r1). set (rb := (instance, length Ha) :: ra).
        assert (La : length Ha = S (length H)) by (unfold Ha; rewrite app_length; cbn; lia).
        assert (Lb : length Hb2 = S (S (length H))) by (unfold Hb2; rewrite app_length; cbn; lia).
        assert (KA : keeps [] H Ha) by apply keeps_app. assert (KB : keeps [] H Hb2) by (apply (keeps_trans _ _ Ha); [exact KA|apply keeps_app]).
        assert (Ek : nth_error Ha (length H) = Some (RStr k)) by apply nth_app_new.
        assert (Ek2 : nth_error Hb2 (length H) = Some (RStr k)) by (now apply nth_app_l).
        assert (Ep : nth_error Hb2 (length Ha) = Some (RPointer (inst o, []))) by apply nth_app_new.
        assert (LH1 : length H1 <= length H) by (destruct Hb as (_ & [L _] & _); exact L).
        assert (Lt := nth_some_lt _ _ _ Et).
        assert (Hba : in_body H1 l ws tc m ra Ha).
        { apply (in_body_change [] H1 l ws tc m r H); [exact KA|intros ? []|unfold ra; rewrite !cell_before by discriminate; reflexivity|unfold ra; rewrite !cell_before by discriminate; reflexivity|exact Hb]. }
        assert (EL : lookup k (map (fun ka => (fst ka, RPointer (inst (snd ka), []))) reg) = Some (RPointer (inst o, []) : val)).
        { rewrite (lookup_map_snd (fun x => RPointer (inst x, []))). rewrite (In_lookup k reg o Hnd Hin). reflexivity. }
        assert (HI : forall rest' out, runs rb Hb2 rest' out -> runs ra Ha (SDefine [Some instance] (XIndex (registry_field (ow "instance") c) (ow "id")) :: rest') out).
        { intros rest' out Ho. eapply run_define; [|exact Ho]. eapply eval_index; [exact (proj1 (body_field _ _ _ _ _ _ _ _ _ _ _ _ _ _ _ _ Hba Hreg))|eapply eval_var; [unfold ra; cells|exact Ek]|].
          cbn [at_index entry]. unfold andthen. erewrite entries_of by (apply (keeps_nth H); [exact KA|apply (keeps_nth H0); [exact K0|exact Hrw]]). unfold done. rewrite EL. reflexivity. }
        assert (EId : evals rb Hb2 (XField (XVar instance) (s_ "ID")) (Out (RStr (o_id i), Hb2))).
        { eapply eval_field_pointer; [eapply eval_var; [unfold rb; cells|exact Ep]|]. unfold at_place. cbn [fst snd app].
          rewrite (keeps_nth H Hb2 (inst o) (RStruct iws) KB) by (now apply (keeps_nth H0)). cbn [part]. now rewrite Eid. }
        assert (EIid : evals rb Hb2 (ow "id") (Out (RStr k, Hb2))) by (eapply eval_var; [unfold rb, ra; cells|exact Ek2]).
        assert (Hcond : evals rb Hb2 (XEqual IsUnequal (ow "id") (XField (XVar instance) (s_ "ID"))) (Out (RBool (negb (str_eqb k (o_id i))), Hb2))).
        { apply (eval_equal _ _ _ _ _ _ _ _ _ _ _ IsUnequal _ _ _ _ (str_eqb k (o_id i)) EIid EId). reflexivity. }
        destruct (str_eqb k (o_id i)) eqn:Eeq; cbn [negb] in Hcond |- *.
        + (* the instance is serialized *)
          unfold go_ser_instance.
          assert (KB0 : keeps [] H0 Hb2) by (now apply (keeps_trans _ _ H)).
          assert (Hall : Forall (fun kv => value_runs X printed duration_from structs functions globals G heap inst H0 (snd kv)) (o_fields i)).
          { apply Forall_forall. intros kv _. now apply values_run. }
          assert (HF := function_runs X printed duration_from structs functions globals G heap inst H0 (c_name c) (c_props c) (o_fields i) iws (inst o, []) Hb2 Hall (Hclasses c Hc) KB0
            ltac:(unfold at_place; cbn [fst snd part]; now rewrite (keeps_nth H0 Hb2 _ _ KB0 Eo)) Hf).
          assert (HP := fields_panic X G heap (c_props c) (o_fields i) []).
          destruct (go_ser_properties X (c_props c) _ []) as [jo|[p|]]; cbn [sbind]; [| |destruct HP].
          * destruct HF as (H' & u & K & HRu & Hcall). set (H2 := replace t (REntries (upsert k u es)) H').
            assert (KH' : keeps [] H H') by (now apply (keeps_trans _ _ Hb2)).
            assert (K2' : keeps [t] H' H2) by (unfold H2; apply keeps_replace; [left; now left|apply keeps_refl]).
            assert (K2 : keeps [t] H H2) by (apply (keeps_trans _ _ H'); [apply (keeps_more []); [intros ? []|exact KH']|exact K2']).
            assert (Hrun : runs ra Ha body (Out (Next, H2))).
            { apply HI. eapply run_if; [exact Hcond|cbn; apply run_nil|]. eapply run_assign; [eapply eval_call; [eapply args_cons; [eapply eval_var; [unfold rb; cells|exact Ep]|apply args_nil]|exact Hcall]| |apply run_nil].
              apply (assign_map _ _ _ _ _ _ _ _ _ H'); [eapply eval_var; [unfold rb, ra; cells|now apply (keeps_nth H)]|eapply eval_var; [unfold rb, ra; cells|now apply (keeps_nth Hb2)]|now apply (keeps_nth H)]. }
            assert (HR2 : entries_read H2 (S t) (js ++ [(k, JObj jo)]) (upsert k u es)).
            { rewrite <- upsert_fresh by (apply Hdis; now left). apply (Forall2_upsert (reads _ (S t))).
              - apply (reads_keeps [t] H' _ (length Hb2)); [exact K2'|intros a [<-|[]]; lia|lia|exact HRu].
              - apply (entries_keeps [t] H _ (S t)); [exact K2|intros a [<-|[]]; lia|lia|exact HR]. }
            assert (HN := IH (js ++ [(k, JObj jo)]) (upsert k u es) H2 ltac:(intros x Hx; apply Hincl; now right) Hndr'
              ltac:(intros x Hx Hx'; unfold keys in Hx'; rewrite map_app in Hx'; apply in_app_or in Hx' as [Hx'|[<-|[]]]; [now apply (Hdis x (or_intror Hx))|now apply Hk])
              ltac:(apply (in_body_change [t] H1 l ws tc m r H); [exact K2|intros a [<-|[]]; right; exact Ht|reflexivity|reflexivity|exact Hb])
              ltac:(apply (keeps_new [t] H0 H'); [now apply (keeps_trans _ _ H)|intros a [<-|[]]; lia|exact K2'])
              ltac:(unfold H2; apply nth_replace_same; destruct KH'; lia)
              ltac:(unfold H2; rewrite nth_replace_other by lia; now apply (keeps_nth H)) HR2).
            destruct (go_ser_registry X G heap c rest) as [js'|[p|id got]]; cbn [sbind].
            -- destruct HN as (H4 & es' & K4 & E4 & F4 & R4). exists H4, es'. split; [now apply (keeps_trans _ _ H2)|]. split; [exact E4|].
               split; [rewrite <- app_assoc in F4; exact F4|]. eapply range_key_step; [exact Hrun|exact R4].
            -- eapply range_key_step; [exact Hrun|exact HN].
            -- destruct HN as (H4 & L4 & E4 & R4). exists H4. split; [apply (keeps_trans _ _ H2); [apply (keeps_more [t]); [intros x [<-|[]]; now left|exact K2]|exact L4]|]. split; [exact E4|]. eapply range_key_step; [exact Hrun|exact R4].
          * apply range_key_panics. apply HI. eapply run_if; [exact Hcond|cbn; apply run_nil|]. apply run_assign_panics. eapply eval_call_panics; [eapply args_cons; [eapply eval_var; [unfold rb; cells|exact Ep]|apply args_nil]|exact HF].
        + (* another identifier *)
          set (H2 := replace ec (other_id c k (o_id i)) Hb2). exists H2. split; [unfold H2; apply keeps_replace; [left; right; now left|apply (keeps_more []); [intros ? []|exact KB]]|].
          split; [unfold H2; apply nth_replace_same; lia|]. apply range_key_return. apply HI. apply (run_if_return _ _ _ _ _ _ _ _ _ Hb2 _ _ true); [exact Hcond|]. cbn iota.
          destruct (nth_error Hb2 ec) as [u|] eqn:Eu; [|apply nth_error_None in Eu; lia].
          eapply run_assign; [eapply eval_call|apply (assign_var _ _ _ _ _ _ _ _ _ _ ec u); [unfold rb, ra; cells|exact Eu]|apply run_return].
          * eapply args_cons; [apply eval_text|]. eapply args_cons; [exact EIid|]. eapply args_cons; [exact EId|apply args_nil].
          * eapply call_library; [reflexivity|]. reflexivity.
    Qed.
  End Registry.
  Lemma some_more {A} (l : list A) : l <> [] -> decides IsGreater (Some (Z.compare (Z.of_nat (length l)) 0)) = true.
  Proof. intros H. destruct l; [congruence|reflexivity]. Qed.

  Lemma registries_run H1 l ws tc m ec r (R : gregistries) :
    cell_of r (Own "err") = Some ec -> ec < length H1 -> ec <> m -> length H0 <= length H1 -> length H0 <= ec ->
    forall cs, incl cs (g_classes G) ->
    (forall c, In c cs -> exists w, lookup (field (c_plural c)) ws = Some w /\ shown_registry c w (match lookup (field (c_plural c)) R with Some r => r | None => [] end)) ->
    forall js es H, in_body H1 l ws tc m r H -> keeps [] H0 H -> nth_error H m = Some (REntries es) -> entries_read H (S m) js es ->
    match go_ser_registries X G heap cs R js with
    | SOk js' => exists H' es', keeps [m] H H' /\ nth_error H' m = Some (REntries es') /\ entries_read H' (S m) js' es' /\
        forall rest o, runs r H' rest o -> runs r H (flat_map serialize_registry_code cs ++ rest) o
    | SFail (SError id got) => exists c H', In c cs /\ keeps [m; ec] H H' /\ nth_error H' ec = Some (other_id c id got) /\
        forall rest, runs r H (flat_map serialize_registry_code cs ++ rest) (Out (Return, H'))
    | SFail (SPanic _) => forall rest, runs r H (flat_map serialize_registry_code cs ++ rest) Panicked
    end.
  Proof.
    intros Ec1 Ec2 Ec3 LH Ec4. induction cs as [|c cs IH]; intros Hcs Hshown js es H Hb K0 Em HR; cbn [flat_map go_ser_registries].
    - exists H, es. split; [apply keeps_refl|]. split; [exact Em|]. split; [exact HR|]. auto.
    - destruct (Hshown c (or_introl eq_refl)) as (w & Ew & Hnd & Hreg).
      set (reg := match lookup (field (c_plural c)) R with Some r => r | None => [] end) in *.
      assert (EW := proj1 (body_field X printed duration_from structs functions globals _ _ _ _ _ _ _ _ _ _ Hb Ew)).
      assert (HIH := fun js es H => IH ltac:(intros x Hx; apply Hcs; now right) ltac:(intros c' Hc'; apply Hshown; now right) js es H). clear IH.
      assert (LH1 : length H1 <= length H) by (destruct Hb as (_ & [L _] & _); exact L).
      destruct reg as [|e0 reg0] eqn:Ereg.
      + (* nothing is done *)
        assert (Hsize : evals r H (XLen (registry_field (ow "instance") c)) (Out (RInt 0, H))).
        { eapply eval_len; [exact EW|]. destruct Hreg as [[-> _]|(a & -> & Ea & _)]; [reflexivity|]. cbn [size]. unfold andthen. erewrite entries_of by (apply (keeps_nth H0); [exact K0|exact Ea]). reflexivity. }
        assert (Hskip : forall rest o, runs r H rest o -> runs r H (serialize_registry_code c ++ rest) o).
        { intros rest o Ho. cbn [serialize_registry_code app]. eapply run_if; [eapply eval_order; [exact Hsize|apply eval_number|reflexivity]|cbn; apply run_nil|exact Ho]. }
        specialize (HIH js es H Hb K0 Em HR). destruct (go_ser_registries X G heap cs R js) as [js'|[p|id got]].
        * destruct HIH as (H' & es' & A & B & C & D). exists H', es'. split; [exact A|]. split; [exact B|]. split; [exact C|]. intros rest o Ho. rewrite <- app_assoc. apply Hskip. now apply D.
        * intros rest. rewrite <- app_assoc. apply Hskip, HIH.
        * destruct HIH as (c' & H' & A & B & C & D). exists c', H'. split; [now right|]. split; [exact B|]. split; [exact C|]. intros rest. rewrite <- app_assoc. apply Hskip, D.
      + rewrite <- Ereg in *. assert (Hne : reg <> []) by congruence. clear Ereg e0 reg0.
        destruct Hreg as [[_ E]|(a & -> & Ea & Hinst)]; [contradiction|].
        assert (Hcond : evals r H (XOrder IsGreater (XLen (registry_field (ow "instance") c)) (XNumber 0)) (Out (RBool true, H))).
        { assert (HO : evals r H (XOrder IsGreater (XLen (registry_field (ow "instance") c)) (XNumber 0)) (Out (RBool (decides IsGreater (Some (Z.compare (Z.of_nat (length reg)) 0))), H))).
          { apply (eval_order _ _ _ _ _ _ _ _ _ H H _ _ _ (RInt (Z.of_nat (length reg))) (RInt 0)); [eapply eval_len; [exact EW|]|apply eval_number|reflexivity]. cbn [size]. unfold andthen. erewrite entries_of by (apply (keeps_nth H0); [exact K0|exact Ea]).
            rewrite map_length. reflexivity. }
          rewrite (some_more reg Hne) in HO. exact HO. }
        set (t := length H). set (r1 := (For "target" (c_name c), S t) :: r). set (Hs := H ++ [REntries []; RMap t]).
        assert (Ls : length Hs = S (S t)) by (unfold Hs; rewrite app_length; cbn; unfold t; lia).
        assert (KS : keeps [] H Hs) by (split; [lia|]; intros x v E _; unfold Hs; now apply nth_app_l).
        assert (E0 : nth_error Hs t = Some (REntries [])) by (unfold Hs, t; rewrite nth_error_app2, Nat.sub_diag by lia; reflexivity).
        assert (E1 : nth_error Hs (S t) = Some (RMap t)) by (unfold Hs, t; rewrite nth_error_app2 by lia; replace (S (length H) - length H) with 1 by lia; reflexivity).
        assert (HB : in_body H1 l ws tc m r Hs) by (apply (in_body_change [] H1 l ws tc m r H); [exact KS|intros ? []|reflexivity|reflexivity|exact Hb]).
        assert (HB1 : in_body H1 l ws tc m r1 Hs) by (apply (in_body_change [] H1 l ws tc m r H); [exact KS|intros ? []|unfold r1; rewrite !cell_before by discriminate; reflexivity|unfold r1; rewrite !cell_before by discriminate; reflexivity|exact Hb]).
        assert (KS0 : keeps [] H0 Hs) by (now apply (keeps_trans _ _ H)).
        assert (HL := registry_loop c (Hcs c (or_introl eq_refl)) H1 l ws tc m ec r a reg Ew Hnd Ea Hinst Ec1 Ec2 Ec3 t ltac:(unfold t; exact LH1) LH Ec4 reg [] [] Hs
          (fun x Hx => Hx) Hnd ltac:(intros k _ []) HB KS0 E0 E1 (Forall2_nil _)).
        assert (Eran : ranged X (RMap a) Hs = Out (map (fun ka => (RStr (fst ka), RPointer (inst (snd ka), []))) reg, Hs)).
        { cbn [ranged]. unfold andthen. erewrite entries_of by (apply (keeps_nth H0); [exact KS0|exact Ea]). unfold done. rewrite map_map. reflexivity. }
        assert (EW1 := proj1 (body_field X printed duration_from structs functions globals _ _ _ _ _ _ _ _ _ _ HB1 Ew)).
        assert (HD : forall rest o, runs r1 Hs rest o -> runs r H (SDefine [Some (For "target" (c_name c))] (XMake t_object None) :: rest) o).
        { intros rest o Ho. eapply run_define; [apply eval_make_map|]. rewrite app_length. cbn [length]. replace (length H + 1) with (S t) by (unfold t; lia).
          replace ((H ++ [REntries []]) ++ [RMap (length H)]) with Hs by (unfold Hs, t; now rewrite <- app_assoc). exact Ho. }
        destruct (go_ser_registry X G heap c reg) as [jo|[p|id got]]; cbn [sbind].
        * destruct HL as (H' & es' & K & Et & HRe & Hrun). cbn [app] in HRe.
          set (H2 := replace m (REntries (upsert (go_key (c_plural c)) (RMap t) es)) H').
          assert (Lm := nth_some_lt _ _ _ Em).
          assert (KH' : keeps [] H H') by (apply (keeps_new [t] H Hs); [exact KS|intros x [<-|[]]; unfold t; lia|exact K]).
          assert (Em' : nth_error H' m = Some (REntries es)) by (now apply (keeps_nth H)).
          assert (K2 : keeps [m] H' H2) by (unfold H2; apply keeps_replace; [left; now left|apply keeps_refl]).
          assert (K2H : keeps [m] H H2) by (apply (keeps_trans _ _ H'); [apply (keeps_more []); [intros ? []|exact KH']|exact K2]).
          assert (Hbl : length H0 <= m) by (destruct Hb as (_ & _ & _ & D & _); exact D).
          assert (HR2 : entries_read H2 (S m) (upsert (go_key (c_plural c)) (JObj jo) js) (upsert (go_key (c_plural c)) (RMap t) es)).
          { apply (Forall2_upsert (reads _ (S m))).
            - apply reads_obj. exists t, es'. split; [reflexivity|]. split; [unfold t; lia|]. split; [unfold H2; rewrite nth_replace_other by (unfold t; lia); exact Et|].
              apply (entries_keeps [m] H' _ (S t)); [exact K2|intros x [<-|[]]; unfold t; lia|unfold t; lia|exact HRe].
            - apply (entries_keeps [m] H _ (S m)); [exact K2H|intros x [<-|[]]; lia|lia|exact HR]. }
          assert (Hblock : forall rest o, runs r H2 rest o -> runs r H (serialize_registry_code c ++ rest) o).
          { intros rest o Ho. cbn [serialize_registry_code app]. eapply run_if; [exact Hcond|cbn iota|exact Ho]. apply HD.
            eapply run_range; [exact EW1|exact Eran|exact Hrun|]. eapply run_assign; [eapply eval_var; [unfold r1; cells|]| |apply run_nil].
            - destruct K as [_ K]. apply K; [exact E1|intros [E|[]]; lia].
            - apply (body_target X printed duration_from structs functions globals H0 H1 l ws tc m r1 H' es); [|exact Em'].
              apply (in_body_change [t] H1 l ws tc m r1 Hs); [exact K|intros x [<-|[]]; right; unfold t; exact LH1|reflexivity|reflexivity|exact HB1]. }
          specialize (HIH (upsert (go_key (c_plural c)) (JObj jo) js) (upsert (go_key (c_plural c)) (RMap t) es) H2).
          assert (HN := HIH ltac:(apply (in_body_change [m] H1 l ws tc m r H); [exact K2H|intros x [<-|[]]; now left|reflexivity|reflexivity|exact Hb])
            ltac:(apply (keeps_new [m] H0 H'); [now apply (keeps_trans _ _ H)|intros x [<-|[]]; exact Hbl|exact K2])
            ltac:(unfold H2; apply nth_replace_same; destruct KH'; lia) HR2).
          destruct (go_ser_registries X G heap cs R _) as [js'|[p|id got]].
          -- destruct HN as (H3 & es3 & A & B & C & D). exists H3, es3. split; [now apply (keeps_trans _ _ H2)|]. split; [exact B|]. split; [exact C|]. intros rest o Ho. rewrite <- app_assoc. apply Hblock. now apply D.
          -- intros rest. rewrite <- app_assoc. apply Hblock, HN.
          -- destruct HN as (c' & H3 & A & B & C & D). exists c', H3. split; [now right|]. split; [apply (keeps_trans _ _ H2); [apply (keeps_more [m]); [intros x [<-|[]]; now left|exact K2H]|exact B]|]. split; [exact C|]. intros rest. rewrite <- app_assoc. apply Hblock, D.
        * intros rest. rewrite <- app_assoc. cbn [serialize_registry_code app]. eapply run_if_panics; [exact Hcond|]. cbn iota. apply HD. eapply run_range_panics; [exact EW1|exact Eran|exact HL].
        * destruct HL as (H' & LL & EE & Hrun). exists c, H'. split; [now left|]. split; [apply (keeps_fresh _ [t; ec] _ Hs); [apply (keeps_more []); [intros ? []|exact KS]|exact LL|intros x [<-|[<-|[]]]; [right; unfold t; lia|left; right; now left]]|]. split; [exact EE|]. intros rest. rewrite <- app_assoc. cbn [serialize_registry_code app].
          eapply run_if_return; [exact Hcond|]. cbn iota. apply HD. eapply run_range_return; [exact EW1|exact Eran|exact Hrun].
  Qed.
  Lemma graph_runs (gg : gograph (g_time X)) l : heap = gg_heap gg ->
    (forall vs, library (go_to (g_name G)) vs = None) -> find (fun f => str_eqb (gf_name f) (go_to (g_name G))) functions = Some (serialize_graph_code G) ->
    shown_graph X G inst H0 l gg ->
    match go_ser_graph X G gg with
    | SOk j => exists H' u, keeps [] H0 H' /\ reads H' (length H0) j u /\ ev (fun n => called n (go_to (g_name G)) [RPointer l]) H0 (Out ([u; RNil], H'))
    | SFail (SError id got) => exists c H', In c (g_classes G) /\ keeps [] H0 H' /\ ev (fun n => called n (go_to (g_name G)) [RPointer l]) H0 (Out ([RNil; other_id c id got], H'))
    | SFail (SPanic _) => ev (fun n => called n (go_to (g_name G)) [RPointer l]) H0 Panicked
    end.
  Proof.
    intros Eheap Hlib Hfind (ws & Hl & Hf & Hregs). rewrite <- Eheap in Hf, Hregs. unfold go_ser_graph. rewrite <- Eheap.
    set (c0 := length H0). set (r := [(Own "err", S (S c0)); (Own "target", S c0); (Own "instance", c0)]).
    set (H1 := H0 ++ [RPointer l; RNil; RNil]). set (m := length H1). set (H2 := replace (S c0) (RMap m) (H1 ++ [REntries []])).
    assert (L1 : length H1 = S (S (S c0))) by (unfold H1; rewrite app_length; cbn; unfold c0; lia).
    assert (L2 : length H2 = S m) by (unfold H2; rewrite length_replace, app_length; cbn; unfold m; lia).
    assert (Lm : m = S (S (S c0))) by (unfold m; exact L1).
    assert (K1 : keeps [] H0 H1) by (split; [unfold c0 in *; lia|]; intros x v E _; unfold H1; now apply nth_app_l).
    assert (KH : keeps [] H0 H2) by (unfold H2; apply keeps_replace; [right; unfold c0; lia|]; apply (keeps_trans _ _ H1); [exact K1|apply keeps_app]).
    assert (N1 : forall k u, nth_error [RPointer l; RNil; RNil] k = Some u -> nth_error H1 (k + c0) = Some u).
    { intros k u E. unfold H1. rewrite nth_error_app2 by (unfold c0; lia). replace (k + c0 - length H0) with k by (unfold c0; lia). exact E. }
    assert (Etc : nth_error H2 (S c0) = Some (RMap m)) by (unfold H2; apply nth_replace_same; rewrite app_length; cbn; lia).
    assert (Eec : nth_error H2 (S (S c0)) = Some RNil) by (unfold H2; rewrite nth_replace_other by lia; apply nth_app_l; apply (N1 2); reflexivity).
    assert (Eb : in_body H2 l ws (S c0) m r H2).
    { split; [exact KH|]. split; [apply keeps_refl|]. split; [lia|]. split; [unfold c0 in *; lia|].
      split. { intros E. unfold at_place in Hl. destruct (nth_error H0 (fst l)) eqn:En; [|discriminate]. apply nth_some_lt in En. unfold c0 in *. lia. }
      split; [now apply (keeps_at _ _ H0)|]. split.
      - exists c0. split; [reflexivity|]. split; [|lia]. unfold H2. rewrite nth_replace_other by lia. apply nth_app_l. apply (N1 0). reflexivity.
      - split; [reflexivity|]. split; [exact Etc|lia]. }
    assert (Em : nth_error H2 m = Some (REntries [])) by (unfold H2; rewrite nth_replace_other by lia; apply nth_app_new).
    assert (Hall : Forall (fun kv => value_runs X printed duration_from structs functions globals G heap inst H0 (snd kv)) (gg_fields gg)).
    { apply Forall_forall. intros kv _. now apply values_run. }
    assert (HP := properties_runs X printed duration_from structs functions globals G heap inst H0 (gg_fields gg) H2 l ws (S c0) m Hall (g_props G) 0 r H2 [] [] Hf Eb Em (Forall2_nil _)).
    assert (HPP := fields_panic X G heap (g_props G) (gg_fields gg) []).
    (* the call *)
    assert (HC : forall o o', o <> Stuck -> runs r H1 (gf_body (serialize_graph_code G)) o ->
      (match o with Out (_, H') => all_loaded X r [Own "target"; Own "err"] H' | Panicked => Panicked | Stuck => Stuck end) = o' ->
      ev (fun n => called n (go_to (g_name G)) [RPointer l]) H0 o').
    { intros o o' Ho HR Eo. eapply ev_step; [intros n; cbn - [S_GoRun.exec S_GoRun.library S_GoRun.all_zero]; rewrite Hlib, Hfind; reflexivity|].
      eapply ev_bind; [apply ev_const; reflexivity|]. cbn beta. eapply ev_bind.
      { exists 1. intros [|n] Ln; [lia|]. cbn. reflexivity. }
      cbn beta. eapply ev_bind; [apply ev_const; cbn; reflexivity|]. cbn beta. eapply ev_bind; [apply ev_const; cbn; unfold done, andthen, alloc; cbn; reflexivity|]. cbn beta.
      rewrite <- !app_assoc. cbn [app]. rewrite !app_length. cbn [length].
      replace (length H0 + 1) with (S c0) by (unfold c0; lia). replace (length H0 + 2) with (S (S c0)) by (unfold c0; lia). fold c0 H1 r.
      destruct o as [[s H']| |].
      - eapply ev_bind; [exact HR|]. apply ev_const. exact Eo.
      - subst o'. apply ev_panic. exact HR.
      - contradiction. }
    set (tail := serialize_properties_code (g_props G) 0 ++ flat_map serialize_registry_code (g_classes G) ++ [SReturn]).
    assert (HS : forall o, runs r H2 (SDefer [SIf (XEqual IsUnequal (ow "err") XNil) [SAssign [ow "target"] XNil] []] :: tail) o -> runs r H1 (gf_body (serialize_graph_code G)) o).
    { intros o Ho. cbn [serialize_graph_code gf_body]. apply (start_runs X printed duration_from structs functions globals r H1 l c0 (S c0)); [reflexivity|apply (N1 0); reflexivity|reflexivity|lia|exact Ho]. }
    destruct (go_ser_properties X (g_props G) _ []) as [js|[p|]]; cbn [sbind]; [| |destruct HPP].
    - destruct HP as (r' & H3 & es & Gr & K & E1 & E2 & Hrun).
      assert (Eb3 := in_body_later X H0 0 _ _ _ _ _ _ _ _ _ Gr K Eb).
      assert (K03 : keeps [] H0 H3) by (apply (keeps_new [m] H0 H2); [exact KH|intros x [<-|[]]; unfold c0 in *; lia|exact K]).
      assert (HR := registries_run H2 l ws (S c0) m (S (S c0)) r' (gg_registries gg) (grows_cell 0 r r' (Own "err") _ (stable_own 0 "err") eq_refl Gr) ltac:(lia) ltac:(lia) ltac:(destruct KH; lia) ltac:(unfold c0; lia)
        (g_classes G) (fun x Hx => Hx) Hregs js es H3 Eb3 K03 E1 E2).
      destruct (go_ser_registries X G heap (g_classes G) (gg_registries gg) js) as [js'|[p|id got]]; cbn [sbind].
      + destruct HR as (H4 & es' & K4 & E3 & E4 & Hrun4).
        assert (K24 : keeps [m] H2 H4) by (now apply (keeps_trans _ _ H3)).
        exists H4, (RMap m). split; [apply (keeps_new [m] H0 H2); [exact KH|intros x [<-|[]]; unfold c0 in *; lia|exact K24]|]. split.
        * apply reads_obj. exists m, es'. split; [reflexivity|]. split; [unfold c0 in *; lia|]. split; [exact E3|]. apply (entries_keeps [] H4 _ (S m)); [apply keeps_refl|intros ? []|unfold c0 in *; lia|exact E4].
        * assert (Eec4 : nth_error H4 (S (S c0)) = Some RNil) by (destruct K24 as [_ K24]; apply K24; [exact Eec|intros [E|[]]; lia]).
          apply (HC (Out (Return, H4))); [discriminate| |].
          -- apply HS. eapply run_defer; [apply Hrun, Hrun4, run_return|]. eapply run_if; [eapply eval_equal; [eapply eval_var; [reflexivity|exact Eec4]|apply eval_nil|reflexivity]|cbn; apply run_nil|apply run_nil].
          -- cbn. unfold andthen, done. rewrite (load_at X H4 (S c0) (RMap m)) by (destruct K24 as [_ K24]; apply K24; [exact Etc|intros [E|[]]; lia]).
             rewrite (load_at X H4 (S (S c0)) RNil Eec4). reflexivity.
      + apply (HC Panicked); [discriminate| |reflexivity]. apply HS, run_defer_panics. apply Hrun, HR.
      + destruct HR as (c & H4 & Hc & K4 & E4 & Hrun4).
        assert (K24 : keeps [m; S (S c0)] H2 H4) by (apply (keeps_trans _ _ H3); [apply (keeps_more [m]); [intros x [<-|[]]; now left|exact K]|exact K4]).
        assert (K04 : keeps [] H0 H4) by (apply (keeps_new [m; S (S c0)] H0 H2); [exact KH|intros x [<-|[<-|[]]]; unfold c0 in *; lia|exact K24]).
        assert (Etc4 : nth_error H4 (S c0) = Some (RMap m)) by (destruct K24 as [_ K24]; apply K24; [exact Etc|intros [E|[E|[]]]; lia]).
        exists c, (replace (S c0) RNil H4). split; [exact Hc|]. split; [apply keeps_replace; [right; unfold c0; lia|exact K04]|].
        apply (HC (Out (Return, replace (S c0) RNil H4))); [discriminate| |].
        * apply HS. eapply run_defer; [apply Hrun, Hrun4|]. eapply run_if; [eapply eval_equal; [eapply eval_var; [reflexivity|exact E4]|apply eval_nil|reflexivity]|cbn|apply run_nil].
          eapply run_assign; [apply eval_nil|apply (assign_var _ _ _ _ _ _ _ _ _ _ (S c0) (RMap m)); [reflexivity|exact Etc4]|apply run_nil].
        * cbn - [replace]. unfold andthen, done. rewrite (load_at X _ (S c0) RNil) by (apply nth_replace_same; now apply nth_some_lt in Etc4).
          rewrite (load_at X _ (S (S c0)) (other_id c id got)) by (rewrite nth_replace_other by lia; exact E4). reflexivity.
    - apply (HC Panicked); [discriminate| |reflexivity]. apply HS, run_defer_panics. apply HP.
  Qed.
End Graph.
