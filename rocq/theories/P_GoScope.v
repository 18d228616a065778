(** Proofs about the names in the generated Go functions. *)
From Coq Require Import String List Arith NArith ZArith Bool Lia.
From Verif Require Import Base M_Naming M_Schema M_Dec M_TypeGraph M_Walk M_GoImports M_Text M_GoGen M_AutoID S_Scope M_Scope M_GoScope
  S_TypeGraph S_Conform S_Walk S_GoImports S_LangValid P_Common P_AutoID P_TypeGraph P_GoImports P_References P_Scope P_BlockScope.
Import ListNotations.
Open Scope list_scope.
Local Open Scope nat_scope.

Definition go_stems : list str :=
  map s_ ["value"; "ok"; "cast"; "fcast"; "target"; "err"; "i"; "k"; "item"; "count"; "slice"; "map"; "v"]%string.
Lemma go_stems_plain : forallb (forallb (fun c => negb (is_digit c))) go_stems = true.
Proof. vm_compute. reflexivity. Qed.
Ltac stem := vm_compute; repeat (first [left; reflexivity | right]).

Notation gnum := (num go_stems).
Lemma gnum_auto stem n k : In (s_ stem) go_stems -> n <= k -> gnum n (auto stem k).
Proof. apply num_auto. exact go_stems_plain. Qed.
Lemma gnum_below stem n k : In (s_ stem) go_stems -> k < n -> ~ gnum n (auto stem k).
Proof. apply num_below. exact go_stems_plain. Qed.
Lemma gauto_eq stem stem' k k' : In (s_ stem) go_stems -> In (s_ stem') go_stems -> auto stem k = auto stem' k' -> s_ stem = s_ stem' /\ k = k'.
Proof. apply auto_eq. exact go_stems_plain. Qed.
Lemma gnum_unreserved n x : gnum n x -> ~ In x go_keywords.
Proof.
  intros H Hin. apply num_last in H.
  assert (K : forallb (fun k => negb (is_digit (last_char k))) go_keywords = true) by (vm_compute; reflexivity).
  rewrite forallb_forall in K. apply K in Hin. now rewrite H in Hin.
Qed.

Section Scope.
  Variable globals : list str.
  Notation meaning := (meaning globals).
  Notation scoped := (scoped go_keywords globals).
  Notation right := (right globals).
  Notation gready := (ready globals go_stems).
  Notation gfree := (free go_stems).

  (** Numbered variables mean themselves, whatever is declared after them. *)
  Lemma auto_here s k f F : right (((auto s k, Auto (auto s k)) :: f) :: F) (use s k).
  Proof. exists (Auto (auto s k)), (auto s k). split; [now left|apply meaning_here]. Qed.
  Lemma auto_skip s k y f F : right (f :: F) (use s k) -> right (((y, Auto y) :: f) :: F) (use s k).
  Proof.
    intros (t & x & [H|H] & E); [|discriminate]. injection H as <- <-. exists (Auto (auto s k)), (auto s k). split; [now left|].
    destruct (str_eqb (auto s k) y) eqn:Ey; [apply str_eqb_eq in Ey as <-; apply meaning_here|].
    rewrite meaning_skip; [exact E|]. now apply str_eqb_neq.
  Qed.
  Lemma auto_block s k F : right F (use s k) -> right ([] :: F) (use s k).
  Proof. intros H. exact H. Qed.
  Lemma auto_enter s k D F : Forall (fun p => snd p = Auto (fst p)) D -> right F (use s k) -> right (enter D F) (use s k).
  Proof.
    intros HD. revert F. induction HD as [|[y t] D Hy _ IH]; intros F Hl; [destruct F; exact Hl|].
    destruct F as [|f F]; [exact Hl|]. cbn [enter rev]. rewrite <- app_assoc. apply (IH (((y, t) :: f) :: F)).
    cbn in Hy. subst t. now apply auto_skip.
  Qed.
  Lemma auto_ready s k n F : In (s_ s) go_stems -> k < n -> right F (use s k) -> gready n F (use s k).
  Proof.
    intros Hs Hk (t & x & H & E). exists t, x. repeat split; [exact H|exact E|]. destruct H as [H|H]; [|discriminate]. injection H as <- <-.
    now apply gnum_below.
  Qed.
  Lemma auto_store_ready s k n F : In (s_ s) go_stems -> k < n -> right F (use s k) -> gready n F (Store (Auto (auto s k)) (auto s k)).
  Proof.
    intros Hs Hk (t & x & H & E). exists t, x. destruct H as [H|H]; [|discriminate]. injection H as <- <-. repeat split; [now right|exact E|].
    now apply gnum_below.
  Qed.

  Lemma sub_right n F K l : Forall (gready n F) K -> incl l K -> Forall (right F) l.
  Proof. intros H Hl. apply ready_right in H. rewrite Forall_forall in *. auto. Qed.
  Lemma sub_ready n F K l : Forall (gready n F) K -> incl l K -> Forall (gready n F) l.
  Proof. intros H Hl. rewrite Forall_forall in *. auto. Qed.
End Scope.

(** Goals [scoped]: the names mentioned are ready by a hypothesis, the names declared are numbered. *)
Ltac unres := eapply gnum_unreserved; apply (gnum_auto _ 0); [stem|lia].
Ltac fresh_name := let E := fresh "E" in intros E; cbn [keys map fst In] in E;
  repeat match type of E with _ \/ _ => destruct E as [E|E] end;
  first [ destruct E; fail
        | apply gauto_eq in E as [E _]; [discriminate E|stem|stem]
        | match goal with Hf : free _ _ _ |- _ => refine (Hf _ _ E); apply gnum_auto; [stem|lia] end ].
Ltac inn := first [assumption | apply in_eq | match goal with |- In _ (_ :: _) => apply in_cons; inn | |- In _ (_ ++ _) => apply in_or_app; first [left; inn | right; inn] end].
Ltac open_needs := idtac.
Ltac in_needs := open_needs; inn.
Ltac split_in Hc := lazymatch type of Hc with
  | In _ (_ ++ _) => apply in_app_or in Hc; destruct Hc as [Hc|Hc]; [split_in Hc|split_in Hc]
  | In _ (_ :: _) => destruct Hc as [Hc|Hc]; [subst|split_in Hc]
  | In _ [] => destruct Hc
  | _ => idtac end.
Ltac incl_needs := let c := fresh "c" in let Hc := fresh "Hc" in intros c Hc; open_needs; split_in Hc; inn.
Ltac auto_right := repeat first [apply auto_here | apply auto_skip | apply auto_block].
Ltac one_right := first
  [ solve [auto_right]
  | match goal with H : Forall (ready _ _ _ ?F) ?K |- P_BlockScope.right _ ?F ?c =>
      refine (proj1 (Forall_forall _ _) (ready_right _ _ _ _ _ H) c _); in_needs end ].
Ltac sc :=
  match goal with
  | |- S_Scope.scoped _ _ _ [] => apply scoped_nil
  | |- S_Scope.scoped _ _ _ (go_report _ _) => unfold go_report
  | |- S_Scope.scoped _ _ _ ((_ :: _) ++ _) => cbn [app]
  | |- S_Scope.scoped _ _ _ ([] ++ _) => cbn [app]
  | |- S_Scope.scoped _ _ _ ((_ ++ _) ++ _) => rewrite <- app_assoc
  | H : Forall (ready _ _ ?n (?f :: ?F)) _ |- S_Scope.scoped _ _ (?f :: ?F) (let_auto ?s ?k :: _) =>
      apply scoped_declare; [unres|fresh_name|];
      apply (ready_declare _ _ _ _ _ _ (auto s k) (Auto (auto s k)) (gnum_auto s n k ltac:(stem) ltac:(lia))) in H
  | |- S_Scope.scoped _ _ _ (?c :: _) => apply scoped_cons; [one_right|]
  | |- S_Scope.scoped _ _ ?F (Block _ :: _) => apply scoped_block
  | H : Forall (ready _ _ _ ?F) _ |- S_Scope.scoped _ _ ([] :: ?F) _ => apply ready_block in H
  | H : Forall (ready _ _ _ ?F) ?K |- S_Scope.scoped _ _ ?F ?l => is_var l;
      apply scoped_right_all; refine (sub_right _ _ _ _ _ H _); incl_needs
  | H : Forall (ready _ _ _ ?F) ?K |- S_Scope.scoped _ _ ?F (store _) =>
      apply scoped_right_all; refine (sub_right _ _ _ _ _ H _); incl_needs
  | H : Forall (ready _ _ _ ?F) ?K |- S_Scope.scoped _ _ ?F (address _) =>
      apply scoped_right_all; refine (sub_right _ _ _ _ _ H _); incl_needs
  | H : Forall (ready _ _ _ ?F) ?K |- S_Scope.scoped _ _ ?F (?l ++ _) =>
      apply scoped_right; [refine (sub_right _ _ _ _ _ H _); incl_needs|]
  end.
Ltac open_needs_in Hc := idtac.
Ltac item_ready H := let c := fresh "c" in let Hc := fresh "Hc" in
  apply Forall_forall; intros c Hc; open_needs_in Hc; cbn [store address] in Hc; split_in Hc;
  first [ apply auto_ready; [stem|lia|auto_right]
        | apply auto_store_ready; [stem|lia|auto_right]
        | refine (proj1 (Forall_forall _ _) (ready_le _ _ _ _ _ _ (Nat.le_succ_diag_r _) H) _ _); in_needs ].


Section Go.
  Variable g : graph.
  Variable globals : list str.
  Notation meaning := (meaning globals).
  Notation scoped := (scoped go_keywords globals).
  Notation right := (right globals).
  Notation gready := (ready globals go_stems).
  Notation gfree := (free go_stems).

  (** * Parsing *)
  Section Parse.
    Variable registry : cls -> list code.

    (** What the code for a type mentions, besides the numbered variables *)
    Definition go_base : list code :=
      [own "errors"; outer pkg_strings; outer pkg_fmt; outer (s_ "nil"); outer (s_ "len"); outer (s_ "make"); outer (s_ "string");
       outer (s_ "bool"); outer (s_ "float64"); outer (s_ "int64")].
    Fixpoint go_support (t : ty) : list code :=
      go_base ++
      match t with
      | TBool | TFloat _ => []
      | TInt _ => [outer pkg_math]
      | TStr pattern | TPath pattern => match pattern with Some p => go_pattern g p | None => [] end
      | TDate _ | TTime _ | TDatetime _ | TTimeZone => [outer pkg_time]
      | TDuration => [outer (s_ "durationFromString")]
      | TArray values _ _ => outer pkg_strconv :: go_type values ++ go_support values
      | TMap values => go_type values ++ go_support values
      | TClass n => match find_class g n with Some c => registry c | None => [] end
      | TEmbed n => outer (go_from n) :: flat_map registry (embed_references g n)
      end.

    Definition go_needs (t : ty) (value : list code) (tg : target_expr) (ref : list code) : list code :=
      value ++ store tg ++ address tg ++ ref ++ go_support t.

    Definition numbered_tops (n n' : nat) (l : list code) : Prop :=
      Forall (fun p => gnum n (fst p) /\ ~ gnum n' (fst p) /\ snd p = Auto (fst p)) (tops l).

    Ltac open_needs ::= unfold go_needs; cbn [go_support]; unfold go_base in *.
    Ltac open_needs_in Hc ::= unfold go_needs in Hc.

    Lemma go_cast_scoped cast type value ref n f F K rest :
      In (s_ cast) go_stems -> s_ cast <> s_ "ok" ->
      gfree n (f :: F) -> Forall (gready n (f :: F)) K -> incl (value ++ ref ++ go_base ++ outers type) K ->
      (let F' := ((auto "ok" n, Auto (auto "ok" n)) :: (auto cast n, Auto (auto cast n)) :: f) :: F in
       Forall (gready n F') K -> scoped F' rest) ->
      scoped (f :: F) (go_cast cast type value ref n ++ rest).
    Proof.
      intros Hs Hok Hfree H Hin Hrest. unfold go_cast, go_report. rewrite <- !app_assoc. cbn [app].
      assert (Hi : forall l, incl l (value ++ ref ++ go_base ++ outers type) -> incl l K) by (intros l Hl c Hc; auto).
      apply scoped_right; [refine (sub_right _ _ _ _ _ H _); apply Hi; incl_needs|].
      apply scoped_right; [refine (sub_right _ _ _ _ _ H _); apply Hi; incl_needs|].
      assert (N : forall s, In (s_ s) go_stems -> gnum n (auto s n)) by (intros s Hs'; now apply gnum_auto).
      apply scoped_declare; [eapply gnum_unreserved, N, Hs|intros E; exact (Hfree _ (N _ Hs) E)|].
      apply (ready_declare _ _ _ _ _ _ (auto cast n) (Auto (auto cast n)) (N _ Hs)) in H.
      apply scoped_declare; [eapply gnum_unreserved, (N "ok"%string); stem| |].
      { cbn [keys map fst In]. intros [E|E]; [apply gauto_eq in E as [E _]; [congruence|exact Hs|stem]|].
        refine (Hfree _ (N "ok"%string _) E). stem. }
      apply (ready_declare _ _ _ _ _ _ (auto "ok" n) (Auto (auto "ok" n)) (N "ok"%string ltac:(stem))) in H.
      apply scoped_cons; [auto_right|]. apply scoped_block; [|now apply Hrest].
      apply ready_block in H. apply scoped_right_all. refine (sub_right _ _ _ _ _ H _). apply Hi. incl_needs.
    Qed.

    Lemma numbered_cast cast type value ref n n' l rest :
      In (s_ cast) go_stems -> n < n' -> Forall plain_code value -> tops rest = [] -> l = go_cast cast type value ref n ++ rest ->
      numbered_tops n n' l.
    Proof.
      intros Hs Hn Hv Hr ->. unfold numbered_tops, go_cast. rewrite !tops_app, (tops_plain value Hv), Hr.
      rewrite tops_plain by (apply Forall_forall; intros c Hc; apply in_map_iff in Hc as (x & <- & _); exists (Outer (s_ x)), (s_ x); now left).
      cbn [tops let_auto use app]. 
      assert (A : forall s, In (s_ s) go_stems -> gnum n (auto s n) /\ ~ gnum n' (auto s n) /\ Auto (auto s n) = Auto (auto s n))
        by (intros s Hs'; split; [now apply gnum_auto|split; [now apply gnum_below|reflexivity]]).
      constructor; [now apply A|]. constructor; [apply (A "ok"%string); stem|constructor].
    Qed.

    Lemma go_parse_next t : forall value tg ref n, n < snd (go_parse g registry t value tg ref n).
    Proof.
      induction t as [|b|b|pt|pt|fm|fm|fm| | |t IH mn mx|t IH|c|e]; intros value tg ref n; cbn [go_parse snd]; try lia.
      - match goal with |- context[go_parse g registry t ?v ?tg ?r ?m] => specialize (IH v tg r m); destruct (go_parse g registry t v tg r m) as [item n'] end.
        cbn [snd] in *. lia.
      - match goal with |- context[go_parse g registry t ?v ?tg ?r ?m] => specialize (IH v tg r m); destruct (go_parse g registry t v tg r m) as [item n'] end.
        cbn [snd] in *. lia.
    Qed.

    Lemma embed_or_not t : (exists e, t = TEmbed e) \/ forall (A : Type) (a b : A), match t with TEmbed _ => a | _ => b end = b.
    Proof. destruct t; try (right; reflexivity). left. now eexists. Qed.
    Lemma numbered_tops_num n n' item : numbered_tops n n' item -> Forall (fun p => gnum n (fst p)) (tops item).
    Proof. apply Forall_impl. tauto. Qed.
    Lemma numbered_tops_auto n n' item : numbered_tops n n' item -> Forall (fun p => snd p = Auto (fst p)) (tops item).
    Proof. apply Forall_impl. tauto. Qed.

    Ltac cast := cbn [go_parse fst snd]; (split; [|split; [lia|eapply numbered_cast; [| | | |reflexivity]; try assumption; try reflexivity; [stem|lia]]]);
      eapply go_cast_scoped; [stem|discriminate|match goal with Hf : free _ _ _ |- _ => exact Hf end|
                              match goal with H : Forall (ready _ _ _ _) _ |- _ => exact H end|unfold outers; cbn [map]; incl_needs|];
      match goal with H : Forall (ready _ _ _ _) _ |- _ => clear H end; let F' := fresh in let H := fresh "H" in intros F' H; subst F'; repeat sc.

    Lemma go_parse_scoped t : forall value tg ref n F,
      gfree n F -> Forall (gready n F) (go_needs t value tg ref) ->
      scoped F (fst (go_parse g registry t value tg ref n)) /\ n < snd (go_parse g registry t value tg ref n) /\
      numbered_tops n (snd (go_parse g registry t value tg ref n)) (fst (go_parse g registry t value tg ref n)).
    Proof.
      induction t as [|b|b|pt|pt|fm|fm|fm| | |t IH mn mx|t IH|c|e]; intros value tg ref n [|f F] Hfree H; try contradiction;
        assert (Hv : Forall plain_code value) by
          (apply Forall_app in H as [H _]; revert H; apply Forall_impl; intros c0 (t0 & x0 & Hc0 & _); now exists t0, x0).
      - cast.
      - cast. unfold go_bounds. destruct (b_min b), (b_max b); repeat sc.
      - cast. unfold go_bounds. destruct (b_min b), (b_max b); repeat sc.
      - cast. destruct pt; repeat sc.
      - cast. destruct pt; repeat sc.
      - cast.
      - cast.
      - cast.
      - cast.
      - cast.
      - (* arrays *)
        cbn [go_parse]. specialize (IH [use "cast" n; use "i" n] (Inside [use "target" n; use "i" n]) (ref ++ [outer pkg_strconv; use "i" n]) (S n)).
        destruct (go_parse g registry t _ _ _ (S n)) as [item n'] eqn:Eitem. cbn [fst snd] in *.
        assert (L : n < n') by (pose proof (go_parse_next t [use "cast" n; use "i" n] (Inside [use "target" n; use "i" n]) (ref ++ [outer pkg_strconv; use "i" n]) (S n)) as L; rewrite Eitem in L; cbn in L; lia).
        split; [|split; [exact L|eapply numbered_cast; [| | | |reflexivity]; try assumption; [stem|now destruct mn, mx]]].
        eapply go_cast_scoped; [stem|discriminate|exact Hfree|exact H|unfold outers; cbn [map]; incl_needs|].
        clear H. intros F' H. subst F'. cbn [go_type].
        destruct mn, mx; repeat sc.
        all: match goal with H : Forall (ready _ _ _ ?F0) _ |- _ => destruct (IH F0) as (S1 & _ & T1) end.
        all: try (apply free_declare; [apply gnum_below; [stem|lia]|apply free_block]).
        all: try (item_ready H).
        all: apply scoped_app; [discriminate|exact S1|].
        all: apply (ready_le _ _ _ (S n) _ _ (Nat.le_succ_diag_r _)) in H.
        all: apply (ready_enter _ _ _ _ _ _ (numbered_tops_num _ _ _ T1)) in H.
        all: repeat sc.
      - (* maps *)
        cbn [go_parse]. destruct (embed_or_not t) as [(e & ->)|C].
        + cbn [go_parse go_type]. cast. cbn [address]. repeat sc.
        + rewrite !C. specialize (IH [use "cast" n; use "k" n] (Inside [use "target" n; use "k" n]) (ref ++ [use "k" n]) (S n)).
          pose proof (go_parse_next t [use "cast" n; use "k" n] (Inside [use "target" n; use "k" n]) (ref ++ [use "k" n]) (S n)) as L.
          destruct (go_parse g registry t _ _ _ (S n)) as [item n'] eqn:Eitem. cbn [fst snd] in *. assert (L' : n < n') by lia.
          split; [|split; [exact L'|eapply numbered_cast; [| | | |reflexivity]; try assumption; [stem|reflexivity]]].
          eapply go_cast_scoped; [stem|discriminate|exact Hfree|exact H|unfold outers; cbn [map]; incl_needs|].
          clear H. intros F' H. subst F'. cbn [go_type]. repeat sc.
          match goal with H : Forall (ready _ _ _ ?F0) _ |- _ => destruct (IH F0) as (S1 & _ & T1) end.
          { apply free_declare; [apply gnum_below; [stem|lia]|apply free_block]. }
          { item_ready H. }
          rewrite ?C. apply scoped_app; [discriminate|exact S1|].
          apply (ready_le _ _ _ (S n) _ _ (Nat.le_succ_diag_r _)) in H.
          apply (ready_enter _ _ _ _ _ _ (numbered_tops_num _ _ _ T1)) in H. repeat sc.
      - (* references *) cast.
      - (* embeddable structures *)
        cbn [go_parse fst snd]. split; [|split; [lia|]].
        + repeat sc.
        + unfold numbered_tops. rewrite tops_plain; [constructor|].
          apply Forall_forall. intros c Hc.
          refine (right_plain _ _ _ (proj1 (Forall_forall _ _) (sub_right _ _ _ _ _ H _) c Hc)). incl_needs.
    Qed.

    Definition property_needs (p : prop) : list code :=
      [own "cast"; own "errors"; own "ref"; own "target"] ++ go_type (p_type p) ++ go_support (p_type p).
    Ltac open_needs ::= unfold property_needs.

    Lemma go_parse_property_scoped p n F :
      gfree n F -> Forall (gready n F) (property_needs p) ->
      scoped F (fst (go_parse_property g registry p n)) /\ n < snd (go_parse_property g registry p n) /\
      numbered_tops n (snd (go_parse_property g registry p n)) (fst (go_parse_property g registry p n)).
    Proof.
      intros Hfree H. destruct F as [|f F]; [destruct Hfree|]. unfold go_parse_property.
      set (intermediate := p_optional p && negb (is_pointer_type (p_type p))).
      set (tg := if intermediate then Variable_ "target" n else Inside [own "target"]).
      pose proof (go_parse_scoped (p_type p) [use "value" n] tg [own "ref"] (S n)) as HS.
      pose proof (go_parse_next (p_type p) [use "value" n] tg [own "ref"] (S n)) as L.
      destruct (go_parse g registry (p_type p) _ _ _ (S n)) as [parsing n']. cbn [fst snd] in *. split; [|split; [lia|]].
      - cbn [app]. repeat sc.
        assert (HP : forall F', Forall (gready n F') (property_needs p) -> gfree (S n) F' -> F' <> [] -> right F' (use "value" n) ->
                     (intermediate = true -> right F' (use "target" n)) ->
                     scoped F' parsing /\ (forall rest, (forall F'', Forall (gready (S n) F'') (property_needs p) -> (intermediate = true -> right F'' (use "target" n)) -> scoped F'' rest) -> scoped F' (parsing ++ rest))).
        { clear H. intros F' H Hf HF Hv Ht. destruct (HS F') as (S1 & _ & T1); [exact Hf| |].
          - apply Forall_forall. intros c Hc. unfold go_needs in Hc.
            assert (Hst : In c (store tg ++ address tg) -> gready (S n) F' c).
            { unfold tg. destruct intermediate; cbn [store address]; intros Hc'; split_in Hc'.
              - apply auto_store_ready; [stem|lia|now apply Ht].
              - apply auto_ready; [stem|lia|now apply Ht].
              - refine (proj1 (Forall_forall _ _) (ready_le _ _ _ _ _ _ (Nat.le_succ_diag_r _) H) _ _); in_needs.
              - refine (proj1 (Forall_forall _ _) (ready_le _ _ _ _ _ _ (Nat.le_succ_diag_r _) H) _ _); in_needs. }
            split_in Hc.
            + apply auto_ready; [stem|lia|exact Hv].
            + apply Hst, in_or_app. now left.
            + apply Hst, in_or_app. now right.
            + refine (proj1 (Forall_forall _ _) (ready_le _ _ _ _ _ _ (Nat.le_succ_diag_r _) H) _ _); in_needs.
            + refine (proj1 (Forall_forall _ _) (ready_le _ _ _ _ _ _ (Nat.le_succ_diag_r _) H) _ _); in_needs.
          - split; [exact S1|]. intros rest Hr. apply scoped_app; [exact HF|exact S1|]. apply Hr.
            + apply (ready_enter _ _ _ _ _ _ (numbered_tops_num _ _ _ T1)). now apply (ready_le _ _ n _ _ _ (Nat.le_succ_diag_r _)).
            + intros E. apply (auto_enter _ _ _ _ _ (numbered_tops_auto _ _ _ T1)). now apply Ht. }
        destruct (p_optional p).
        + apply scoped_block; [|constructor]. apply ready_block in H. destruct intermediate eqn:Ei.
          * repeat sc. apply HP; [exact H| |discriminate|auto_right|intros _; auto_right|].
            { apply free_declare; [apply gnum_below; [stem|lia]|apply free_block]. }
            intros F'' H'' Hr''. apply scoped_cons; [now apply Hr''|]. clear H. repeat sc.
          * apply HP; [exact H|apply free_block|discriminate|auto_right|discriminate].
        + repeat sc. apply HP; [exact H|apply free_block|discriminate|auto_right|]. unfold intermediate. discriminate.
      - assert (E : tops ([own "cast"; let_auto "value" n; let_auto "ok" n; use "ok" n] ++
           (if p_optional p then [Block (if intermediate then go_type (p_type p) ++ let_auto "target" n :: parsing ++ [use "target" n; own "target"] else parsing)]
            else [Block [own "errors"; own "ref"]; Block parsing])) = [(auto "value" n, Auto (auto "value" n)); (auto "ok" n, Auto (auto "ok" n))])
          by (now destruct (p_optional p)).
        unfold numbered_tops. rewrite E.
        constructor; [|constructor; [|constructor]]; cbn [fst snd]; (split; [apply gnum_auto; [stem|lia]|split; [apply gnum_below; [stem|lia]|reflexivity]]).
    Qed.

    Lemma go_parse_properties_scoped ps : forall n F,
      gfree n F -> Forall (gready n F) (own "errors" :: flat_map property_needs ps) -> scoped F (go_parse_properties g registry ps n).
    Proof.
      induction ps as [|p ps IH]; intros n F Hfree H; cbn [go_parse_properties]; [constructor|].
      destruct (go_parse_property_scoped p n F Hfree) as (S1 & L & T1).
      { refine (sub_ready _ _ _ _ _ H _). intros c Hc. right. apply in_or_app. now left. }
      destruct (go_parse_property g registry p n) as [parsing n']. cbn [fst snd] in *.
      apply scoped_app; [now apply free_nonempty in Hfree|exact S1|].
      assert (H' : Forall (gready n' (enter (tops parsing) F)) (own "errors" :: flat_map property_needs (p :: ps))).
      { apply (ready_le _ _ n n'); [lia|]. now apply (ready_enter _ _ _ _ _ _ (numbered_tops_num _ _ _ T1)). }
      apply scoped_cons; [exact (proj1 (Forall_forall _ _) (ready_right _ _ _ _ _ H') _ (or_introl eq_refl))|].
      apply IH.
      - apply free_enter; [|now apply (free_le _ n n'); [lia|]]. revert T1. apply Forall_impl. tauto.
      - refine (sub_ready _ _ _ _ _ H' _). intros c [<-|Hc]; [now left|]. right. cbn [flat_map]. apply in_or_app. now right.
    Qed.
  End Parse.
End Go.
