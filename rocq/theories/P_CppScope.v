(** Proofs about the names in the generated C++ functions. *)
From Coq Require Import String List Arith NArith ZArith Bool Lia.
From Verif Require Import Base M_Naming M_Schema M_Dec M_Text M_TypeGraph M_GoImports M_GoScope M_CppScope S_Scope M_Scope
  S_TypeGraph S_Conform S_LangValid P_Common P_AutoID P_Scope P_BlockScope.
Import ListNotations.
Open Scope list_scope.
Local Open Scope nat_scope.

Definition cpp_stems : list str :=
  map s_ ["value_"; "cast_"; "ok_"; "regex_"; "tm_"; "ret_"; "iss_"; "seconds_of_day_"; "error_"; "target_"; "i_"; "item_"; "it_";
          "vector_"; "map_"; "kv_"]%string.
Lemma cpp_stems_plain : forallb (forallb (fun c => negb (is_digit c))) cpp_stems = true.
Proof. vm_compute. reflexivity. Qed.
Ltac stem := vm_compute; repeat (first [left; reflexivity | right]).

(** The names which the code for a type declares in its blocks, from the number [n] on *)
Definition cpp_fixed : list str := map s_ ["expected_but_got"; "invalid_duration"; "reference_not_found"; "regex"; "e"]%string.
Definition taken (n : nat) (x : str) : Prop := num cpp_stems n x \/ In x cpp_fixed \/ exists k, n <= k /\ x = cast_str k.

Lemma taken_le n m x : n <= m -> taken m x -> taken n x.
Proof. intros L [H|[H|(k & Hk & E)]]; [left; now apply (num_le _ n m)|right; now left|right; right; exists k; split; [lia|exact E]]. Qed.
Lemma taken_auto stem n k : In (s_ stem) cpp_stems -> n <= k -> taken n (auto stem k).
Proof. intros H1 H2. left. apply num_auto; [exact cpp_stems_plain|exact H1|exact H2]. Qed.
Lemma taken_fixed n x : mem (s_ x) cpp_fixed = true -> taken n (s_ x).
Proof. intros H. right. left. now apply mem_In. Qed.
Lemma taken_cast_str n k : n <= k -> taken n (cast_str k).
Proof. intros H. right. right. now exists k. Qed.
Lemma fixed_last x : In x cpp_fixed -> is_digit (last_char x) = false.
Proof.
  intros H. assert (K : forallb (fun y => negb (is_digit (last_char y))) cpp_fixed = true) by (vm_compute; reflexivity).
  rewrite forallb_forall in K. apply K in H. now apply negb_true_iff in H.
Qed.
Lemma cast_str_last k : last_char (cast_str k) = 114%N.
Proof. unfold cast_str. now rewrite last_char_app by discriminate. Qed.
Lemma auto_last stem k : is_digit (last_char (auto stem k)) = true.
Proof. apply last_digit. Qed.
Lemma taken_below stem n k : In (s_ stem) cpp_stems -> k < n -> ~ taken n (auto stem k).
Proof.
  intros H Hk [C|[C|(l & Hl & E)]].
  - revert C. apply num_below; [exact cpp_stems_plain|exact H|exact Hk].
  - apply fixed_last in C. rewrite auto_last in C. discriminate.
  - assert (E' := auto_last stem k). rewrite E, cast_str_last in E'. discriminate.
Qed.
Lemma auto_apart stem stem' k k' : In (s_ stem) cpp_stems -> In (s_ stem') cpp_stems -> auto stem k = auto stem' k' -> s_ stem = s_ stem' /\ k = k'.
Proof. apply auto_eq. exact cpp_stems_plain. Qed.
Lemma taken_unreserved n x : taken n x -> ~ In x cpp_keywords.
Proof.
  intros [H|[H|(k & _ & ->)]] Hin.
  - apply num_last in H. assert (K : forallb (fun k => negb (is_digit (last_char k))) cpp_keywords = true) by (vm_compute; reflexivity).
    rewrite forallb_forall in K. apply K in Hin. now rewrite H in Hin.
  - assert (K : forallb (fun k => negb (mem k cpp_fixed)) cpp_keywords = true) by (vm_compute; reflexivity).
    rewrite forallb_forall in K. apply K in Hin. apply mem_In in H. now rewrite H in Hin.
  - assert (K : forallb (fun k => negb (ends (s_ "_str") k)) cpp_keywords = true) by (vm_compute; reflexivity).
    rewrite forallb_forall in K. apply K in Hin. unfold cast_str in Hin. now rewrite ends_app in Hin.
Qed.
(** Names which are not among them *)
Lemma not_taken n x : is_digit (last_char x) = false -> mem x cpp_fixed = false -> ends (s_ "_str") x = false -> ~ taken n x.
Proof.
  intros H1 H2 H3 [H|[H|(k & _ & ->)]].
  - apply num_last in H. congruence.
  - apply mem_In in H. congruence.
  - unfold cast_str in H3. now rewrite ends_app in H3.
Qed.

Section Safe.
  Variable globals : list str.
  Notation meaning := (meaning globals).
  Notation scoped := (scoped cpp_keywords globals).
  Notation right := (right globals).

  Definition safe (n : nat) (F : list (list (str * thing))) (c : code) : Prop :=
    exists t x, (c = Mention t x \/ c = Store t x) /\ meaning x F = Some t /\ ~ taken n x.
  Lemma safe_right n F l : Forall (safe n F) l -> Forall (right F) l.
  Proof. apply Forall_impl. intros c (t & x & H & E & _). now exists t, x. Qed.
  Lemma safe_block n F l : Forall (safe n F) l -> Forall (safe n ([] :: F)) l.
  Proof. apply Forall_impl. intros c H. exact H. Qed.
  Lemma safe_le n m F l : n <= m -> Forall (safe n F) l -> Forall (safe m F) l.
  Proof. intros L. apply Forall_impl. intros c (t & x & H & E & N). exists t, x. repeat split; [exact H|exact E|]. intros Hn. now apply N, (taken_le n m). Qed.
  Lemma safe_declare n f F l x t : taken n x -> Forall (safe n (f :: F)) l -> Forall (safe n (((x, t) :: f) :: F)) l.
  Proof.
    intros Hx. apply Forall_impl. intros c (u & y & H & E & N). exists u, y. repeat split; [exact H| |exact N].
    rewrite meaning_skip; [exact E|]. intros ->. contradiction.
  Qed.
  Lemma safe_enter n D F l : Forall (fun p => taken n (fst p)) D -> Forall (safe n F) l -> Forall (safe n (enter D F)) l.
  Proof.
    intros HD. revert F. induction HD as [|[x t] D Hx _ IH]; intros F Hl; [destruct F; exact Hl|].
    destruct F as [|f F]; [exact Hl|]. cbn [enter rev]. rewrite <- app_assoc. apply (IH (((x, t) :: f) :: F)). now apply safe_declare.
  Qed.
  Lemma safe_mention n F t x : meaning x F = Some t -> ~ taken n x -> safe n F (Mention t x).
  Proof. intros E N. exists t, x. auto. Qed.
  Lemma sub_right n F K l : Forall (safe n F) K -> incl l K -> Forall (right F) l.
  Proof. intros H Hl. apply safe_right in H. rewrite Forall_forall in *. auto. Qed.
  Lemma sub_safe n F K l : Forall (safe n F) K -> incl l K -> Forall (safe n F) l.
  Proof. intros H Hl. rewrite Forall_forall in *. auto. Qed.

  Definition vacant (n : nat) (F : list (list (str * thing))) : Prop :=
    match F with f :: _ => forall x, taken n x -> ~ In x (keys f) | [] => False end.
  Lemma vacant_block n F : vacant n ([] :: F).
  Proof. intros x _ []. Qed.
  Lemma vacant_le n m F : n <= m -> vacant n F -> vacant m F.
  Proof. destruct F as [|f F]; [easy|]. intros L H x Hx. apply H. now apply (taken_le n m). Qed.
  Lemma vacant_declare n f F x t : ~ taken n x -> vacant n (f :: F) -> vacant n (((x, t) :: f) :: F).
  Proof. intros Hx H y Hy [E|Hin]; [cbn in E; subst; contradiction|]. now apply (H y Hy). Qed.
  Lemma vacant_enter n D F : Forall (fun p => ~ taken n (fst p)) D -> vacant n F -> vacant n (enter D F).
  Proof.
    intros HD. revert F. induction HD as [|[x t] D Hx _ IH]; intros F Hl; [destruct F; exact Hl|].
    destruct F as [|f F]; [exact Hl|]. cbn [enter rev]. rewrite <- app_assoc. apply (IH (((x, t) :: f) :: F)). now apply vacant_declare.
  Qed.

  (** Numbered variables mean themselves, whatever is declared after them. *)
  Lemma auto_here s k f F : right (((auto s k, Auto (auto s k)) :: f) :: F) (use s k).
  Proof. exists (Auto (auto s k)), (auto s k). split; [now left|apply meaning_here]. Qed.
  Lemma auto_skip s k y f F : right (f :: F) (use s k) -> right (((y, Auto y) :: f) :: F) (use s k).
  Proof.
    intros (t & x & [H|H] & E); [|discriminate]. injection H as <- <-. exists (Auto (auto s k)), (auto s k). split; [now left|].
    destruct (str_eqb (auto s k) y) eqn:Ey; [apply str_eqb_eq in Ey as <-; apply meaning_here|].
    rewrite meaning_skip; [exact E|]. now apply str_eqb_neq.
  Qed.
  Lemma auto_skip_fixed s k y t f F : is_digit (last_char y) = false -> right (f :: F) (use s k) -> right (((y, t) :: f) :: F) (use s k).
  Proof.
    intros Hy (u & x & [H|H] & E); [|discriminate]. injection H as <- <-. exists (Auto (auto s k)), (auto s k). split; [now left|].
    rewrite meaning_skip; [exact E|]. intros <-. rewrite auto_last in Hy. discriminate.
  Qed.
  Lemma auto_block s k F : right F (use s k) -> right ([] :: F) (use s k).
  Proof. intros H. exact H. Qed.
  Lemma auto_safe s k n F : In (s_ s) cpp_stems -> k < n -> right F (use s k) -> safe n F (use s k).
  Proof.
    intros Hs Hk (t & x & H & E). exists t, x. repeat split; [exact H|exact E|]. destruct H as [H|H]; [|discriminate]. injection H as <- <-.
    now apply taken_below.
  Qed.
  Lemma store_here s k F : right F (use s k) -> right F (Store (Auto (auto s k)) (auto s k)).
  Proof. intros (t & x & [H|H] & E); [|discriminate]. injection H as <- <-. exists (Auto (auto s k)), (auto s k). split; [now right|exact E]. Qed.
  (** The other variables of the blocks *)
  Lemma fixed_here t x f F : right (((x, t) :: f) :: F) (Mention t x).
  Proof. exists t, x. split; [now left|apply meaning_here]. Qed.
  Lemma fixed_skip t x s k u f F : is_digit (last_char x) = false -> right (f :: F) (Mention t x) -> right (((auto s k, u) :: f) :: F) (Mention t x).
  Proof.
    intros Hx (t' & x' & [H|H] & E); [|discriminate]. injection H as <- <-. exists t, x. split; [now left|].
    rewrite meaning_skip; [exact E|]. intros ->. rewrite auto_last in Hx. discriminate.
  Qed.
End Safe.

(** Goals [scoped]: the names mentioned are safe by a hypothesis, the names declared are taken. *)
Ltac fresh_name := let E := fresh "E" in intros E; cbn [keys map fst In] in E;
  repeat match type of E with _ \/ _ => destruct E as [E|E] end;
  first [ destruct E; fail
        | discriminate E
        | apply auto_apart in E as [E _]; [discriminate E|stem|stem]
        | apply (f_equal (fun x => is_digit (last_char x))) in E; rewrite ?auto_last, ?cast_str_last in E; vm_compute in E; discriminate E
        | match goal with Hf : vacant _ _ |- _ => refine (Hf _ _ E); apply taken_auto; [stem|lia] end ].
Ltac inn := first [assumption | apply in_eq | match goal with |- In _ (_ :: _) => apply in_cons; inn | |- In _ (_ ++ _) => apply in_or_app; first [left; inn | right; inn] end].
Ltac open_needs := idtac.
Ltac in_needs := open_needs; inn.
Ltac split_in Hc := lazymatch type of Hc with
  | In _ (_ ++ _) => apply in_app_or in Hc; destruct Hc as [Hc|Hc]; [split_in Hc|split_in Hc]
  | In _ (_ :: _) => destruct Hc as [Hc|Hc]; [subst|split_in Hc]
  | In _ [] => destruct Hc
  | _ => idtac end.
Ltac incl_needs := let c := fresh "c" in let Hc := fresh "Hc" in intros c Hc; open_needs; split_in Hc; inn.
Ltac no_digit := first [reflexivity | rewrite cast_str_last; reflexivity].
Ltac auto_right := repeat first [apply auto_here | apply auto_skip | apply auto_skip_fixed; [no_digit|] | apply auto_block].
Ltac fixed_right := unfold own; repeat first [apply fixed_here | apply fixed_skip; [no_digit|]].
Ltac one_right := first
  [ solve [auto_right]
  | solve [fixed_right]
  | solve [apply store_here; auto_right]
  | match goal with H : Forall (safe _ _ ?F) ?K |- P_BlockScope.right _ ?F ?c =>
      refine (proj1 (Forall_forall _ _) (safe_right _ _ _ _ H) c _); in_needs end ].
Ltac sc :=
  match goal with
  | |- S_Scope.scoped _ _ _ [] => apply scoped_nil
  | |- S_Scope.scoped _ _ _ (cpp_bad_type _ _ :: _) => unfold cpp_bad_type
  | |- S_Scope.scoped _ _ _ (cpp_report _ _ _) => unfold cpp_report
  | |- S_Scope.scoped _ _ _ (cpp_report _ _ _ ++ _) => unfold cpp_report
  | |- S_Scope.scoped _ _ _ (cpp_got _ _) => unfold cpp_got
  | |- S_Scope.scoped _ _ _ (cpp_got _ _ ++ _) => unfold cpp_got
  | |- S_Scope.scoped _ _ _ ((_ :: _) ++ _) => cbn [app]
  | |- S_Scope.scoped _ _ _ ([] ++ _) => cbn [app]
  | |- S_Scope.scoped _ _ _ ((_ ++ _) ++ _) => rewrite <- app_assoc
  | H : Forall (safe _ ?n (?f :: ?F)) _ |- S_Scope.scoped _ _ (?f :: ?F) (let_auto ?s ?k :: _) =>
      apply scoped_declare; [apply (taken_unreserved 0), taken_auto; [stem|lia]|fresh_name|];
      apply (safe_declare _ _ _ _ _ (auto s k) (Auto (auto s k)) (taken_auto s n k ltac:(stem) ltac:(lia))) in H
  | H : Forall (safe _ ?n (?f :: ?F)) _ |- S_Scope.scoped _ _ (?f :: ?F) (let_own ?x :: _) =>
      apply scoped_declare; [apply (taken_unreserved 0), taken_fixed; reflexivity|fresh_name|];
      apply (safe_declare _ _ _ _ _ (s_ x) (Own x) (taken_fixed n x eq_refl)) in H
  | H : Forall (safe _ ?n (?f :: ?F)) _ |- S_Scope.scoped _ _ (?f :: ?F) (Declare _ (cast_str ?k) :: _) =>
      apply scoped_declare; [apply (taken_unreserved k), taken_cast_str; lia|fresh_name|];
      apply (safe_declare _ _ _ _ _ (cast_str k) (Auto (cast_str k)) (taken_cast_str n k ltac:(lia))) in H
  | |- S_Scope.scoped _ _ _ (?c :: _) => apply scoped_cons; [one_right|]
  | |- S_Scope.scoped _ _ ?F (Block _ :: _) => apply scoped_block
  | H : Forall (safe _ _ ?F) _ |- S_Scope.scoped _ _ ([] :: ?F) _ => apply safe_block in H
  | H : Forall (safe _ _ ?F) ?K |- S_Scope.scoped _ _ ?F (?l ++ _) =>
      apply scoped_right; [refine (sub_right _ _ _ _ _ H _); incl_needs|]
  | H : Forall (safe _ _ ?F) ?K |- S_Scope.scoped _ _ ?F ?l =>
      apply scoped_right_all; refine (sub_right _ _ _ _ _ H _); incl_needs
  end.
Ltac open_needs_in Hc := idtac.
Ltac item_safe H := let c := fresh "c" in let Hc := fresh "Hc" in
  apply Forall_forall; intros c Hc; open_needs_in Hc; split_in Hc;
  first [ apply auto_safe; [stem|lia|auto_right]
        | refine (proj1 (Forall_forall _ _) (safe_le _ _ _ _ _ (Nat.le_succ_diag_r _) H) _ _); in_needs ].

Section Cpp.
  Variable cpp : cpp_conf.
  Variable g : graph.
  Variable globals : list str.
  Notation meaning := (meaning globals).
  Notation scoped := (scoped cpp_keywords globals).
  Notation right := (right globals).
  Notation csafe := (safe globals).

  (** * Parsing *)
  Section Parse.
    Variable registry : cls -> list code.

    Definition cpp_base : list code :=
      [own "errors"; outer (s_ "message"); outer (s_ "strlen"); outer (s_ "value_type_to_string")].
    Definition ctime_support : list code := if cpp_ctime cpp then [outer (s_ "tm"); outer (s_ "strptime")] else [].
    Fixpoint cpp_support (t : ty) : list code :=
      cpp_base ++
      match t with
      | TDate _ | TTime _ | TDatetime _ => ctime_support
      | TDuration => [outer (s_ "duration_from_string")]
      | TArray values _ _ => outer (s_ "size_t") :: cpp_type cpp values ++ cpp_support values
      | TMap values => cpp_type cpp values ++ cpp_support values
      | TClass n => match find_class g n with Some c => registry c | None => [] end
      | TEmbed n => outer (cpp_from n) :: flat_map registry (embed_references g n)
      | _ => []
      end.
    Definition cpp_needs (t : ty) (value target ref : list code) : list code := value ++ target ++ ref ++ cpp_support t.

    Ltac open_needs ::= unfold cpp_needs; cbn [cpp_support]; unfold cpp_base, ctime_support in *.
    Ltac open_needs_in Hc ::= unfold cpp_needs in Hc.

    Lemma cpp_parse_next t : forall simple value target ref n, n < snd (cpp_parse cpp g registry t simple value target ref n).
    Proof.
      induction t as [|b|b|pt|pt|fm|fm|fm| | |t IH mn mx|t IH|c|e]; intros simple value target ref n; cbn [cpp_parse snd]; try lia.
      all: match goal with |- context[cpp_parse cpp g registry ?u ?s ?v ?tg ?r ?m] => specialize (IH s v tg r m); destruct (cpp_parse cpp g registry u s v tg r m) as [item n'] end.
      all: cbn [snd] in *; lia.
    Qed.

    Definition cpp_tops (simple : bool) (n : nat) : list (str * thing) :=
      if simple then [] else [(auto "value_" n, Auto (auto "value_" n))].

    Lemma cpp_parse_tops t simple value target ref n :
      Forall plain_code value -> Forall plain_code target -> Forall plain_code ref ->
      (forall c, Forall plain_code (registry c)) ->
      tops (fst (cpp_parse cpp g registry t simple value target ref n)) = cpp_tops simple n.
    Proof.
      intros H1 H2 H3 H4.
      assert (T : forall l, Forall plain_code l -> tops l = []) by (intros; now apply tops_plain).
      assert (TV : tops (cpp_value simple value n) = []) by (unfold cpp_value; destruct simple; [auto|reflexivity]).
      assert (TH : tops (cpp_head simple value n) = cpp_tops simple n) by (unfold cpp_head, cpp_tops; destruct simple; cbn [tops let_auto]; [|rewrite T by assumption]; reflexivity).
      assert (TR : forall l, tops (flat_map registry l) = []) by (intros l; apply T, Forall_flat_map, Forall_forall; intros; apply H4).
      destruct t as [|b|b|pt|pt|fm|fm|fm| | |t mn mx|t|c|e]; cbn [cpp_parse];
        try match goal with |- context[cpp_parse cpp g registry ?u ?s ?v ?tg ?r ?m] => destruct (cpp_parse cpp g registry u s v tg r m) as [item n'] end; cbn [fst];
        repeat match goal with |- context[if ?o then _ else _] => match type of o with option _ => destruct o end end;
        repeat first [rewrite TH | rewrite TV | rewrite TR | rewrite (T _ H1) | rewrite (T _ H2) | rewrite (T _ H3)
                     | rewrite tops_app | progress cbn [tops outer app own cpp_bad_type use]]; rewrite ?app_nil_r; reflexivity.
    Qed.

    Ltac dated := match goal with H : Forall _ _ |- _ => unfold cpp_needs in H; cbn [cpp_support] in H; unfold ctime_support in H end.
    Ltac alt := destruct (cpp_ctime cpp) eqn:?.
    Ltac start simple := destruct simple; cbn [cpp_parse cpp_value cpp_head fst snd app].

    Hypothesis registry_plain : forall c, Forall plain_code (registry c).
    Lemma cpp_parse_scoped t : forall simple value target ref n F,
      vacant n F -> Forall (csafe n F) (cpp_needs t value target ref) ->
      scoped F (fst (cpp_parse cpp g registry t simple value target ref n)).
    Proof.
      induction t as [|b|b|pt|pt|fm|fm|fm| | |t IH mn mx|t IH|c|e]; intros simple value target ref n [|f F] Hfree H; try contradiction.
      - start simple; repeat sc.
      - start simple; unfold cpp_bounds, cpp_not_ok; destruct (b_min b), (b_max b); repeat sc.
      - start simple; unfold cpp_bounds, cpp_not_ok; destruct (b_min b), (b_max b); repeat sc.
      - start simple; unfold cpp_not_ok; destruct pt; repeat sc.
      - start simple; unfold cpp_not_ok; destruct pt; repeat sc.
      - dated; start simple; alt; repeat sc.
      - dated; start simple; alt; repeat sc.
      - dated; start simple; alt; repeat sc.
      - start simple; alt; repeat sc.
      - start simple; repeat sc.
      - cbn [cpp_parse]. specialize (IH true [use "item_" n] [use "target_" n; use "i_" n] (ref ++ [use "i_" n]) (S n)).
        pose proof (cpp_parse_tops t true [use "item_" n] [use "target_" n; use "i_" n] (ref ++ [use "i_" n]) (S n)) as HT.
        destruct (cpp_parse cpp g registry t _ _ _ _ (S n)) as [item n']. cbn [fst snd cpp_type] in *.
        destruct mn, mx, simple; cbn [cpp_value cpp_head]; repeat sc.
        all: match goal with H : Forall (safe _ _ ?F0) _ |- _ => specialize (IH F0) end.
        all: apply scoped_app; [discriminate|apply IH; [apply vacant_declare; [apply taken_below; [stem|lia]|apply vacant_block]|item_safe H]|].
        all: rewrite HT; [cbn [cpp_tops enter rev app]; repeat sc| | | |].
        all: try exact registry_plain.
        all: try (repeat constructor; eexists _, _; left; reflexivity).
        all: apply Forall_app; split; [|repeat constructor; eexists _, _; left; reflexivity].
        all: apply Forall_forall; intros c0 Hc; refine (right_plain _ _ _ (proj1 (Forall_forall _ _) (sub_right _ _ _ _ _ H _) c0 Hc)); incl_needs.
      - cbn [cpp_parse]. specialize (IH false [use "it_" n] [use "target_" n; use "it_" n] (ref ++ [use "it_" n]) (S n)).
        pose proof (cpp_parse_tops t false [use "it_" n] [use "target_" n; use "it_" n] (ref ++ [use "it_" n]) (S n)) as HT.
        destruct (cpp_parse cpp g registry t _ _ _ _ (S n)) as [item n']. cbn [fst snd cpp_type] in *.
        destruct simple; cbn [cpp_value cpp_head]; repeat sc.
        all: match goal with H : Forall (safe _ _ ?F0) _ |- _ => specialize (IH F0) end.
        all: apply scoped_app; [discriminate|apply IH; [apply vacant_declare; [apply taken_below; [stem|lia]|apply vacant_block]|item_safe H]|].
        all: rewrite HT; [cbn [cpp_tops enter rev app]| | | |].
        all: try exact registry_plain.
        all: try (repeat constructor; eexists _, _; left; reflexivity).
        all: try (apply Forall_app; split; [|repeat constructor; eexists _, _; left; reflexivity];
          apply Forall_forall; intros c0 Hc; refine (right_plain _ _ _ (proj1 (Forall_forall _ _) (sub_right _ _ _ _ _ H _) c0 Hc)); incl_needs).
        all: apply (safe_declare _ _ _ _ _ (auto "value_" (S n)) (Auto (auto "value_" (S n))) (taken_auto "value_" n (S n) ltac:(stem) ltac:(lia))) in H.
        all: repeat sc.
      - start simple; repeat sc.
      - start simple; repeat sc.
    Qed.

    (** ** Properties *)
    Definition property_needs (p : prop) : list code :=
      [own "value"; own "errors"; own "ref"; own "target"] ++ cpp_support (p_type p).
    Ltac open_needs ::= unfold property_needs.

    Lemma cpp_parse_properties_scoped ps : forall n F,
      vacant n F -> Forall (csafe n F) (own "errors" :: flat_map property_needs ps) -> scoped F (cpp_parse_properties cpp g registry ps n).
    Proof.
      induction ps as [|p ps IH]; intros n F Hfree H; cbn [cpp_parse_properties]; [constructor|].
      unfold cpp_parse_property.
      pose proof (cpp_parse_scoped (p_type p) false [own "value"] [own "target"] [own "ref"] n ([] :: F) (vacant_block n F)) as HS.
      pose proof (cpp_parse_next (p_type p) false [own "value"] [own "target"] [own "ref"] n) as L.
      destruct (cpp_parse cpp g registry (p_type p) _ _ _ _ n) as [parsing n']. cbn [fst snd] in *.
      assert (HS' : scoped ([] :: F) parsing).
      { apply HS. apply safe_block. refine (sub_safe _ _ _ _ _ H _). unfold cpp_needs. intros c Hc. right. cbn [flat_map]. apply in_or_app. left.
        unfold property_needs. cbn [app In] in *. tauto. }
      assert (HR : forall c, In c [own "value"; own "errors"; own "ref"; own "target"] -> right F c).
      { intros c Hc. refine (proj1 (Forall_forall _ _) (safe_right _ _ _ _ H) c _). right. cbn [flat_map]. apply in_or_app. left. unfold property_needs. apply in_or_app. now left. }
      assert (Hrest : scoped F (cpp_parse_properties cpp g registry ps n')).
      { apply IH; [apply (vacant_le n n'); [lia|exact Hfree]|]. apply (safe_le _ n n'); [lia|]. refine (sub_safe _ _ _ _ _ H _).
        intros c [<-|Hc]; [now left|]. right. cbn [flat_map]. apply in_or_app. now right. }
      cbn [app]. apply scoped_cons; [apply HR; now left|].
      assert (Herr : scoped F (own "errors" :: cpp_parse_properties cpp g registry ps n')) by (apply scoped_cons; [apply HR; right; now left|exact Hrest]).
      destruct (p_optional p).
      - cbn [app]. apply scoped_block; [|exact Herr].
        destruct (p_type p); cbn [app]; try exact HS'; (apply scoped_cons; [apply right_block, HR; cbn; tauto|exact HS']).
      - cbn [app]. apply scoped_block; [|apply scoped_block; [exact HS'|exact Herr]].
        apply scoped_cons; [apply right_block, HR; cbn; tauto|]. apply scoped_cons; [apply right_block, HR; cbn; tauto|]. apply scoped_nil.
    Qed.
  End Parse.

  (** The values of other kinds are reported. *)
  Lemma bad_type_scoped n F value ref l :
    F <> [] -> Forall (csafe n F) (cpp_base ++ value ++ ref) -> scoped F l -> scoped F (cpp_bad_type value ref :: l).
  Proof.
    Ltac open_needs ::= unfold cpp_base.
    destruct F as [|f F]; [congruence|]. intros _ H Hl. unfold cpp_bad_type. apply scoped_block; [|exact Hl]. clear Hl. repeat sc.
  Qed.
End Cpp.
