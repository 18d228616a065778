(** Proofs about the names in the generated C++ functions which serialize. *)
From Coq Require Import String List Arith NArith ZArith Bool Lia.
From Verif Require Import Base M_Naming M_Schema M_Dec M_Text M_TypeGraph M_GoImports M_GoScope M_CppScope S_Scope M_Scope
  S_TypeGraph S_Conform S_LangValid P_Common P_AutoID P_Scope P_BlockScope P_CppScope.
Import ListNotations.
Open Scope list_scope.
Local Open Scope nat_scope.

Definition to_stems : list str := map s_ ["target_"; "vector_"; "map_"; "i_"; "kv_"]%string.
Lemma to_stems_plain : forallb (forallb (fun c => negb (is_digit c))) to_stems = true.
Proof. vm_compute. reflexivity. Qed.
Notation tnum := (num to_stems).
Lemma tnum_auto stem n k : In (s_ stem) to_stems -> n <= k -> tnum n (auto stem k).
Proof. apply num_auto. exact to_stems_plain. Qed.
Lemma tnum_below stem n k : In (s_ stem) to_stems -> k < n -> ~ tnum n (auto stem k).
Proof. apply num_below. exact to_stems_plain. Qed.
Lemma tauto_eq stem stem' k k' : In (s_ stem) to_stems -> In (s_ stem') to_stems -> auto stem k = auto stem' k' -> s_ stem = s_ stem' /\ k = k'.
Proof. apply auto_eq. exact to_stems_plain. Qed.
Lemma tnum_unreserved n x : tnum n x -> ~ In x cpp_keywords.
Proof.
  intros H Hin. apply num_last in H. assert (K : forallb (fun k => negb (is_digit (last_char k))) cpp_keywords = true) by (vm_compute; reflexivity).
  rewrite forallb_forall in K. apply K in Hin. now rewrite H in Hin.
Qed.

Section Serialize.
  Variable cpp : cpp_conf.
  Variable globals : list str.
  Notation meaning := (meaning globals).
  Notation scoped := (scoped cpp_keywords globals).
  Notation right := (right globals).
  Notation tready := (ready globals to_stems).
  Notation tfree := (free to_stems).

  Lemma auto_ready s k n F : In (s_ s) to_stems -> k < n -> right F (use s k) -> tready n F (use s k).
  Proof.
    intros Hs Hk (t & x & [H|H] & E); [|discriminate]. injection H as <- <-. apply ready_mention; [exact E|]. now apply tnum_below.
  Qed.
  Lemma tsub_right n F K l : Forall (tready n F) K -> incl l K -> Forall (right F) l.
  Proof. intros H Hl. apply ready_right in H. rewrite Forall_forall in *. auto. Qed.
  Lemma tsub_ready n F K l : Forall (tready n F) K -> incl l K -> Forall (tready n F) l.
  Proof. intros H Hl. rewrite Forall_forall in *. auto. Qed.

  Ltac fresh_num := let E := fresh "E" in intros E; cbn [keys map fst In] in E;
    repeat match type of E with _ \/ _ => destruct E as [E|E] end;
    first [ destruct E; fail
          | apply tauto_eq in E as [E _]; [discriminate E|stem|stem]
          | match goal with Hf : free _ _ _ |- _ => refine (Hf _ _ E); apply tnum_auto; [stem|lia] end ].
  Ltac tright := first
    [ solve [auto_right]
    | match goal with H : Forall (ready _ _ _ ?F) ?K |- P_BlockScope.right _ ?F ?c =>
        refine (proj1 (Forall_forall _ _) (ready_right _ _ _ _ _ H) c _); in_needs end ].
  Ltac ts :=
    match goal with
    | |- S_Scope.scoped _ _ _ [] => apply scoped_nil
    | |- S_Scope.scoped _ _ _ ((_ :: _) ++ _) => cbn [app]
    | |- S_Scope.scoped _ _ _ ([] ++ _) => cbn [app]
    | |- S_Scope.scoped _ _ _ ((_ ++ _) ++ _) => rewrite <- app_assoc
    | H : Forall (ready _ _ ?n (?f :: ?F)) _ |- S_Scope.scoped _ _ (?f :: ?F) (let_auto ?s ?k :: _) =>
        apply scoped_declare; [apply (tnum_unreserved 0), tnum_auto; [stem|lia]|fresh_num|];
        apply (ready_declare _ _ _ _ _ _ (auto s k) (Auto (auto s k)) (tnum_auto s n k ltac:(stem) ltac:(lia))) in H
    | |- S_Scope.scoped _ _ _ (?c :: _) => apply scoped_cons; [tright|]
    | |- S_Scope.scoped _ _ ?F (Block _ :: _) => apply scoped_block
    | H : Forall (ready _ _ _ ?F) _ |- S_Scope.scoped _ _ ([] :: ?F) _ => apply ready_block in H
    | H : Forall (ready _ _ _ ?F) ?K |- S_Scope.scoped _ _ ?F (?l ++ _) =>
        apply scoped_right; [refine (tsub_right _ _ _ _ H _); incl_needs|]
    | H : Forall (ready _ _ _ ?F) ?K |- S_Scope.scoped _ _ ?F ?l =>
        apply scoped_right_all; refine (tsub_right _ _ _ _ H _); incl_needs
    end.
  Ltac item_ready H := let c := fresh "c" in let Hc := fresh "Hc" in
    apply Forall_forall; intros c Hc; open_needs_in Hc; split_in Hc;
    first [ apply auto_ready; [stem|lia|auto_right]
          | refine (proj1 (Forall_forall _ _) (ready_le _ _ _ _ _ _ (Nat.le_succ_diag_r _) H) _ _); in_needs ].

  Fixpoint to_support (t : ty) : list code :=
    match t with
    | TDate f | TTime f | TDatetime f => if cpp_ctime cpp then [outer (s_ "tm_to_string")] else []
    | TDuration => [outer (s_ "duration_to_string")]
    | TArray values _ _ | TMap values => to_support values
    | TEmbed name => [outer (cpp_serializer_name name)]
    | _ => []
    end.
  Definition to_needs (t : ty) (value target : list code) : list code := value ++ target ++ to_support t.

  Lemma cpp_serialize_next t : forall value target n, n <= snd (cpp_serialize cpp t value target n).
  Proof.
    induction t as [|b|b|pt|pt|fm|fm|fm| | |t IH mn mx|t IH|c|e]; intros value target n; cbn [cpp_serialize snd]; try lia.
    all: match goal with |- context[cpp_serialize cpp ?u ?v ?tg ?m] => specialize (IH v tg m); destruct (cpp_serialize cpp u v tg m) as [item n'] end.
    all: cbn [snd] in *; lia.
  Qed.

  Ltac open_needs ::= unfold to_needs; cbn [to_support].
  Ltac open_needs_in Hc ::= unfold to_needs in Hc.
  Ltac numbered := split; [apply tnum_auto; [stem|lia]|split; [apply tnum_below; [stem|lia]|reflexivity]].
  Definition numbered_tops (n n' : nat) (l : list code) : Prop :=
    Forall (fun p => tnum n (fst p) /\ ~ tnum n' (fst p) /\ snd p = Auto (fst p)) (tops l).

  Lemma cpp_serialize_scoped t : forall value target n F,
    tfree n F -> Forall (tready n F) (to_needs t value target) ->
    scoped F (fst (cpp_serialize cpp t value target n)) /\
    numbered_tops n (snd (cpp_serialize cpp t value target n)) (fst (cpp_serialize cpp t value target n)).
  Proof.
    induction t as [|b|b|pt|pt|fm|fm|fm| | |t IH mn mx|t IH|c|e]; intros value target n [|f F] Hfree H; try contradiction;
      (assert (Hv : tops value = [] /\ tops target = []) by
        (split; apply tops_plain, Forall_forall; intros c0 Hc; refine (right_plain _ _ _ (proj1 (Forall_forall _ _) (tsub_right _ _ _ _ H _) c0 Hc)); incl_needs));
      destruct Hv as [Tv Tt].
    1-10,13-14: cbn [cpp_serialize fst snd]; unfold numbered_tops.
    6-8: destruct fm; unfold to_needs in H; cbn [to_support] in H; destruct (cpp_ctime cpp).
    1-21: split; [repeat ts|rewrite ?tops_app; cbn [tops outer app]; rewrite ?tops_app, ?Tv, ?Tt; constructor].
    - cbn [cpp_serialize]. specialize (IH [use "vector_" n; use "i_" n] [use "target_" n; use "i_" n] (S n)).
      pose proof (cpp_serialize_next t [use "vector_" n; use "i_" n] [use "target_" n; use "i_" n] (S n)) as L.
      destruct (cpp_serialize cpp t _ _ (S n)) as [item n']. cbn [fst snd] in *. split.
      + repeat ts.
        match goal with H : Forall (ready _ _ _ ?F0) _ |- _ => destruct (IH F0) as (S1 & T1) end; [|item_ready H|exact S1].
        apply free_declare; [apply tnum_below; [stem|lia]|apply free_block].
      + unfold numbered_tops. cbn [tops outer app let_auto]. rewrite !tops_app. cbn [tops outer let_auto use app]. rewrite !tops_app. cbn [tops outer let_auto use app].
        rewrite Tv, Tt. repeat (constructor; [numbered|]). constructor.
    - cbn [cpp_serialize]. specialize (IH [use "kv_" n] [use "target_" n; use "kv_" n] (S n)).
      pose proof (cpp_serialize_next t [use "kv_" n] [use "target_" n; use "kv_" n] (S n)) as L.
      destruct (cpp_serialize cpp t _ _ (S n)) as [item n']. cbn [fst snd] in *. split.
      + repeat ts.
        match goal with H : Forall (ready _ _ _ ?F0) _ |- _ => destruct (IH F0) as (S1 & T1) end; [|item_ready H|exact S1].
        apply free_declare; [apply tnum_below; [stem|lia]|apply free_block].
      + unfold numbered_tops. cbn [tops outer app let_auto]. rewrite !tops_app. cbn [tops outer let_auto use app]. rewrite ?tops_app. cbn [tops outer let_auto use app].
        rewrite Tv, Tt. repeat (constructor; [numbered|]). constructor.
  Qed.

  Section Properties.
    Variables value target : list code.
    Definition to_property_needs (p : prop) : list code := value ++ target ++ to_support (p_type p).
    Ltac open_needs ::= unfold to_property_needs, to_needs.

    Lemma cpp_serialize_properties_scoped ps : forall n F rest,
      tfree n F -> Forall (tready n F) (flat_map to_property_needs ps) ->
      (forall D n', Forall (fun p => tnum n (fst p) /\ ~ tnum n' (fst p)) D -> n <= n' -> scoped (enter D F) rest) ->
      scoped F (cpp_serialize_properties cpp value target ps n ++ rest).
    Proof.
      induction ps as [|p ps IH]; intros n F rest Hfree H Hrest; cbn [cpp_serialize_properties].
      - destruct F as [|f F]; [destruct Hfree|]. cbn [app]. exact (Hrest [] n (Forall_nil _) (le_n _)).
      - cbn [flat_map] in H. apply Forall_app in H as [Hp Hps]. unfold cpp_serialize_property.
        pose proof (cpp_serialize_scoped (p_type p) value target n) as HS.
        pose proof (cpp_serialize_next (p_type p) value target n) as L.
        destruct (cpp_serialize cpp (p_type p) _ _ n) as [serialization n']. cbn [fst snd] in *.
        assert (HF : F <> []) by (now apply free_nonempty in Hfree).
        assert (Hgo : forall D, Forall (fun q => tnum n (fst q) /\ ~ tnum n' (fst q)) D -> scoped (enter D F) (cpp_serialize_properties cpp value target ps n' ++ rest)).
        { intros D HD. apply IH.
          - apply free_enter; [|now apply (free_le _ n n')]. revert HD. apply Forall_impl. tauto.
          - apply (ready_le _ _ n n'); [exact L|]. apply ready_enter; [|exact Hps]. revert HD. apply Forall_impl. tauto.
          - intros D' n'' HD' L'. replace (enter D' (enter D F)) with (enter (D ++ D') F)
              by (destruct F; [congruence|]; cbn [enter]; now rewrite rev_app_distr, app_assoc).
            apply (Hrest _ n''); [|lia]. apply Forall_app. split.
            + revert HD. apply Forall_impl. intros q [H1 H2]. split; [exact H1|]. intros H3. apply H2. now apply (num_le _ _ n'').
            + revert HD'. apply Forall_impl. intros q [H1 H2]. split; [now apply (num_le _ _ n')|exact H2]. }
        destruct (p_optional p).
        + rewrite <- app_assoc. destruct F as [|f F]; [congruence|]. rename Hp into H. cbn [app].
          do 2 ts. cbn [app]. apply scoped_block; [|exact (Hgo [] (Forall_nil _))].
          apply ready_block in H. exact (proj1 (HS _ (free_block _ _ _) H)).
        + rewrite <- app_assoc. destruct (HS F Hfree Hp) as [S1 T1]. apply scoped_app; [exact HF|exact S1|].
          apply Hgo. revert T1. apply Forall_impl. tauto.
    Qed.
  End Properties.
End Serialize.
