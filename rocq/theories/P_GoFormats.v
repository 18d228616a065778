(** The formats which the validation for Go accepts (C37). *)
From Coq Require Import String List Arith NArith ZArith Bool Lia.
From Verif Require Import Base M_Naming M_Schema M_Strftime M_Walk M_Validate M_LangValid S_Conform S_Strftime S_LangValid
  P_Strftime P_GoTime.
Import ListNotations.
Open Scope list_scope.
Local Open Scope nat_scope.

(** * Lines *)

Lemma lines_step l c r acc : (forall x, In x l -> is_linebreak x = false) -> is_linebreak c = true ->
  exists t r', lines_go acc (l ++ c :: r) = (rev acc ++ l, t) :: lines_go [] r' /\ (r' = r \/ c = 13%N /\ r = 10%N :: r').
Proof.
  revert acc. induction l as [|x l IH]; intros acc Hl Hc.
  - rewrite app_nil_r. cbn [app lines_go]. destruct (N.eqb_spec c 13) as [->|Hn].
    + destruct r as [|d r]; [eexists; exists []; split; [reflexivity | now left]|].
      destruct (N.eqb_spec d 10) as [->|Hd]; [eexists; exists r; split; [reflexivity | right; now split] | eexists; exists (d :: r); split; [reflexivity | now left]].
    + rewrite Hc. eexists. exists r. split; [reflexivity | now left].
  - assert (Hx := Hl x (or_introl eq_refl)). cbn [app lines_go]. destruct (N.eqb_spec x 13) as [->|Hn]; [discriminate|]. rewrite Hx.
    destruct (IH (x :: acc)) as (t & r' & E & H); [intros y Hy; apply Hl; now right | assumption|].
    exists t, r'. split; [|assumption]. rewrite E. cbn. now rewrite <- app_assoc.
Qed.

Lemma first_break s : (forall x, In x s -> is_linebreak x = false) \/
  exists l c r, s = l ++ c :: r /\ (forall x, In x l -> is_linebreak x = false) /\ is_linebreak c = true.
Proof.
  induction s as [|x s IH]; [left; easy|]. destruct (is_linebreak x) eqn:E.
  - right. exists [], x, s. split; [reflexivity|]. split; [easy | assumption].
  - destruct IH as [H | (l & c & r & -> & H & Hc)].
    + left. intros y [<- | Hy]; auto.
    + right. exists (x :: l), c, r. split; [reflexivity|]. split; [intros y [<- | Hy]; auto | assumption].
Qed.

Lemma format_over_app a b : format_over all_letters a -> format_over all_letters b -> format_over all_letters (a ++ b).
Proof. intros H Hb. induction H; cbn; [assumption | now constructor | now constructor]. Qed.

Lemma literally_line w l c r : w <> [] -> is_linebreak c = true -> ~ In c w ->
  literally w (l ++ c :: r) -> literally w l \/ literally w r.
Proof.
  intros Hw Hc Hcw (a & b & E & F). apply app_eq_app in E. destruct E as (m & [[E1 E2] | [E1 E2]]).
  - (* l = a ++ m, w ++ b = m ++ c :: r *)
    apply app_eq_app in E2. destruct E2 as (k & [[E3 E4] | [E3 E4]]).
    + (* w = m ++ k, c :: r = k ++ b *)
      destruct k as [|x k]; cbn in E4.
      * rewrite app_nil_r in E3. subst m l b. left. exists a, []. rewrite app_nil_r. auto.
      * injection E4 as <- _. exfalso. apply Hcw. rewrite E3. apply in_or_app. right. now left.
    + subst m l. left. exists a, k. auto.
  - (* a = l ++ m, c :: r = m ++ w ++ b *)
    destruct m as [|x m]; cbn in E2.
    + destruct w as [|x w]; [congruence|]. injection E2 as -> _. exfalso. apply Hcw. now left.
    + injection E2 as <- E2. subst a. apply (format_over_break _ _ _ _ all_nb) in F; [|assumption]. destruct F as [F1 F2].
      right. exists m, b. auto.
Qed.

Lemma literally_lines w s : w <> [] -> (forall x, In x w -> is_linebreak x = false) -> format_over all_letters s ->
  literally w s <-> exists l, In l (splitlines s) /\ literally w l.
Proof.
  intros Hw Hb. remember (length s) as n eqn:Hn. revert s Hn. induction n as [n IH] using lt_wf_ind. intros s Hn F. subst n.
  destruct (first_break s) as [H | (l & c & r & -> & H & Hc)].
  - destruct s as [|x s].
    + split; [|intros (l & [] & _)]. intros (a & b & E & _). symmetry in E. apply app_eq_nil in E. destruct E as [_ E].
      apply app_eq_nil in E. tauto.
    + rewrite splitlines_id by (assumption || discriminate). split; [intros L; eexists; split; [now left | exact L] | intros (l & [<- | []] & L); exact L].
  - apply (format_over_break _ _ _ _ all_nb) in F; [|assumption]. destruct F as [F1 F2].
    unfold splitlines, lines_ends. destruct (lines_step l c r [] H Hc) as (t & r' & E & Hr). rewrite E. cbn [map fst rev app].
    assert (Hcw : ~ In c w) by (intros C; apply Hb in C; congruence).
    assert (F3 : format_over all_letters r').
    { destruct Hr as [-> | [_ ->]]; [assumption|]. inversion F2; assumption. }
    assert (IH' : literally w r' <-> exists l, In l (splitlines r') /\ literally w l).
    { eapply IH; [|reflexivity | assumption]. rewrite app_length. cbn. destruct Hr as [-> | [_ ->]]; cbn; lia. }
    split.
    + intros L. apply literally_line in L; auto. destruct L as [L | L]; [exists l; split; [now left | assumption]|].
      assert (L' : literally w r').
      { destruct Hr as [-> | [_ ->]]; [assumption|]. apply (literally_line w [] 10%N) in L; [|assumption | reflexivity|].
        - destruct L as [(a & b & Ea & _) | L]; [|assumption]. symmetry in Ea. apply app_eq_nil in Ea. destruct Ea as [_ Ea]. apply app_eq_nil in Ea. tauto.
        - intros C. apply Hb in C. discriminate. }
      apply IH' in L'. destruct L' as (k & K1 & K2). exists k. split; [now right | assumption].
    + intros (k & [<- | Hk] & (a & b & -> & Fa)).
      * exists a, (b ++ c :: r). split; [now rewrite <- !app_assoc | assumption].
      * assert (L' : literally w r') by (apply IH'; exists (a ++ w ++ b); split; [assumption | exists a, b; auto]).
        destruct L' as (a' & b' & -> & Fa').
        assert (Fc : forall x, is_linebreak x = true -> x <> 37%N) by (intros x Hx ->; discriminate).
        destruct Hr as [<- | [-> ->]].
        -- exists (l ++ c :: a'), b'. split; [now rewrite <- app_assoc|]. apply format_over_app; [assumption|]. constructor; auto.
        -- exists (l ++ 13%N :: 10%N :: a'), b'. split; [now rewrite <- app_assoc|]. apply format_over_app; [assumption|].
           constructor; [discriminate|]. constructor; [discriminate | assumption].
Qed.

(** * Tokens *)

Lemma nc_literally w s : w <> [] -> ~ In 37%N w -> nc w s -> ~ literally w s.
Proof.
  intros Hw Hp N (a & b & -> & F). induction F as [|c s Hc F IH|c s Hc F IH]; cbn [app] in N.
  - destruct w as [|x w]; [congruence|]. cbn [app nc] in N. destruct (N.eqb_spec x 37) as [->|_]; [apply Hp; now left|].
    destruct N as [N _]. change (x :: w ++ b) with ((x :: w) ++ b) in N.
    assert (T : starts_with (x :: w) ((x :: w) ++ b) = true) by (apply starts_with_app; eauto). congruence.
  - cbn [nc] in N. apply N.eqb_neq in Hc. rewrite Hc in N. apply IH. apply N.
  - cbn [nc] in N. cbn in N. apply IH. exact N.
Qed.

Lemma substring_cut w s : substring_in w s = true -> exists a b, s = a ++ w ++ b.
Proof.
  induction s as [|c s IH]; cbn [substring_in]; intros H; apply orb_true_iff in H.
  - destruct H as [H | H]; [|discriminate]. apply starts_with_app in H. destruct H as (b & H). exists [], b. exact H.
  - destruct H as [H | H].
    + apply starts_with_app in H. destruct H as (b & H). exists [], b. exact H.
    + destruct (IH H) as (a & b & ->). exists (c :: a), b. reflexivity.
Qed.

Lemma text_format c : ~ In 37%N c -> format_over all_letters c.
Proof.
  induction c as [|x c IH]; intros H; constructor; [intros ->; apply H; now left|]. apply IH. intros C. apply H. now right.
Qed.

Lemma tokens_format ts : Forall (fun t => match t with Directive c => In c SUPPORTED_DIRECTIVES | Text c => c <> [] /\ ~ In 37%N c end) ts ->
  format_over all_letters (concat (map content ts)).
Proof.
  induction 1 as [|t ts Ht _ IH]; cbn; [constructor|]. apply format_over_app; [|assumption]. destruct t as [c|c]; cbn.
  - rewrite SUPPORTED_dirs in Ht. unfold dirs in Ht. apply in_map_iff in Ht. destruct Ht as (d & <- & Hd). apply fo_dir; [assumption | constructor].
  - apply text_format, Ht.
Qed.

Lemma tokens_literally w l ts : w <> [] -> ~ In 37%N w -> lex_line l = Ok ts -> concat (map content ts) = l ->
  Forall (fun t => match t with Directive c => In c SUPPORTED_DIRECTIVES | Text c => c <> [] /\ ~ In 37%N c end) ts ->
  (exists c, In (Text c) ts /\ substring_in w c = true) <-> literally w l.
Proof.
  intros Hw Hp L C T. split.
  - intros (c & Hc & Hs). apply in_split in Hc. destruct Hc as (t1 & t2 & ->). apply substring_cut in Hs. destruct Hs as (x & y & ->).
    exists (concat (map content t1) ++ x), (y ++ concat (map content t2)). apply Forall_app in T. destruct T as [T1 T2].
    split; [rewrite <- C, map_app, concat_app; cbn; now rewrite <- !app_assoc|].
    apply format_over_app; [now apply tokens_format|]. apply Forall_inv in T2. destruct T2 as [_ H]. apply text_format.
    intros Hx. apply H. apply in_or_app. now left.
  - intros H. destruct (existsb (fun t => match t with Text c => substring_in w c | _ => false end) ts) eqn:E.
    + apply existsb_exists in E. destruct E as ([c|c] & Hc & Hs); [discriminate | eauto].
    + exfalso. eapply nc_literally; [exact Hw | exact Hp | | exact H]. eapply lex_go_nc; [exact Hw | exact Hp | exact L|].
      intros c Hc. destruct (substring_in w c) eqn:Es; [|reflexivity]. rewrite <- E. symmetry. apply existsb_exists. exists (Text c). auto.
Qed.

Lemma lex_lines_Forall2 ls tl : lex_lines ls = Ok tl -> Forall2 (fun l ts => lex_line l = Ok ts) ls tl.
Proof.
  revert tl. induction ls as [|l ls IH]; cbn; intros tl H; [injection H as <-; constructor|].
  destruct (lex_line l) eqn:E; cbn in H; [|discriminate]. destruct (lex_lines ls) eqn:E2; cbn in H; [|discriminate].
  injection H as <-. constructor; auto.
Qed.

Lemma tokenize_literally w s tl : w <> [] -> ~ In 37%N w -> (forall x, In x w -> is_linebreak x = false) -> tokenize s = Ok tl ->
  (exists c, In (Text c) (concat tl) /\ substring_in w c = true) <-> literally w s.
Proof.
  intros Hw Hp Hb H. rewrite literally_lines by (try assumption; apply tokenize_accepts; eauto).
  destruct (tokenize_lossless _ _ H) as [C T]. apply tokenize_inv in H. destruct H as [H _]. apply lex_lines_Forall2 in H.
  revert H C T. generalize (splitlines s). intros ls H. induction H as [|l ts ls tl H1 H2 IH]; intros C T; cbn in *.
  - split; [intros (c & [] & _) | intros (l & [] & _)].
  - injection C as C1 C2. assert (T1 := Forall_inv T). assert (T2 := Forall_inv_tail T). specialize (IH C2 T2).
    assert (L := tokens_literally w _ ts Hw Hp H1 C1 T1). split.
    + intros (c & Hc & Hs). apply in_app_or in Hc. destruct Hc as [Hc | Hc].
      * eexists. split; [now left|]. apply L. eauto.
      * destruct (proj1 IH) as (k & K1 & K2); [eauto|]. exists k. split; [now right | assumption].
    + intros (k & [<- | Hk] & K).
      * apply L in K. destruct K as (c & Hc & Hs). exists c. split; [apply in_or_app; now left | assumption].
      * destruct (proj2 IH) as (c & Hc & Hs); [eauto|]. exists c. split; [apply in_or_app; now right | assumption].
Qed.

(** * The validation *)

Lemma elements_ok w : In w layout_elements -> w <> [] /\ ~ In 37%N w /\ forall x, In x w -> is_linebreak x = false.
Proof.
  intros H.
  assert (A : forallb (fun w => negb (length w =? 0) && forallb (fun x => negb (N.eqb x 37) && negb (is_linebreak x)) w) layout_elements = true) by reflexivity.
  rewrite forallb_forall in A. apply A in H. apply andb_true_iff in H. destruct H as [H1 H2]. rewrite forallb_forall in H2.
  split; [intros ->; discriminate|]. split.
  - intros C. apply H2 in C. discriminate.
  - intros x Hx. apply H2 in Hx. apply andb_true_iff in Hx. destruct Hx as [_ Hx]. now apply negb_true_iff in Hx.
Qed.

Lemma format_conflicts f tl : tokenize f = Ok tl ->
  (exists t, In t (concat tl) /\ text_conflicts t = true) <-> exists w, In w layout_elements /\ literally w f.
Proof.
  intros H. split.
  - intros ([c|c] & Ht & Hc); [discriminate|]. cbn [text_conflicts] in Hc. apply existsb_exists in Hc. destruct Hc as (w & Hw & Hs).
    exists w. split; [exact Hw|]. destruct (elements_ok w Hw) as (A & B & C). apply (tokenize_literally w f tl A B C H). eauto.
  - intros (w & Hw & L). destruct (elements_ok w Hw) as (A & B & C). apply (tokenize_literally w f tl A B C H) in L.
    destruct L as (c & Hc & Hs). exists (Text c). split; [assumption|]. cbn [text_conflicts]. apply existsb_exists. exists w. split; [exact Hw | assumption].
Qed.

Lemma format_of_iff t f : format_of t = Some f <-> has_format t f.
Proof. unfold has_format. split; [destruct t; cbn; intros [= <-]; auto | intros [-> | [-> | ->]]; reflexivity]. Qed.

Lemma validate_formats_nil types :
  validate_formats types = Ok [] <-> forall t r f, In (t, r) types -> has_format t f -> go_usable f.
Proof.
  induction types as [|[t r] types IH]; cbn [validate_formats]; [split; [intros _ t r f [] | reflexivity]|].
  assert (T : (forall t' r' f, In (t', r') ((t, r) :: types) -> has_format t' f -> go_usable f) <->
              (forall f, has_format t f -> go_usable f) /\ forall t' r' f, In (t', r') types -> has_format t' f -> go_usable f).
  { split; [intros H; split; [intros f; apply (H t r f); now left | intros t' r' f Hin; apply (H t' r' f); now right]|].
    intros [H1 H2] t' r' f [E | Hin]; [injection E as <- <-; auto | eauto]. }
  rewrite T, <- IH. clear T IH. destruct (format_of t) as [f|] eqn:Ef.
  - apply format_of_iff in Ef.
    assert (U : (forall f', has_format t f' -> go_usable f') <-> go_usable f).
    { split; [auto|]. intros H f' H'. rewrite <- format_of_iff in Ef, H'. congruence. }
    rewrite U. clear U. split.
    + destruct (tokenize f) as [tl|] eqn:Et; cbn [bind]; [|discriminate].
      destruct (validate_formats types) as [e2|]; cbn [bind]; [|discriminate]. intros H. injection H as H.
      apply app_eq_nil in H. destruct H as [H ->]. split; [|reflexivity]. apply map_eq_nil in H.
      split; [apply tokenize_accepts; eauto|]. intros w Hw L.
      destruct (proj2 (format_conflicts f tl Et)) as (x & Hx & Hc); [eauto|].
      assert (C : In x []) by (rewrite <- H; apply filter_In; auto). exact C.
    + intros [[F N] ->]. apply tokenize_accepts in F. destruct F as (tl & Et). rewrite Et. cbn [bind]. f_equal. rewrite app_nil_r.
      destruct (filter text_conflicts (concat tl)) as [|x l] eqn:E; [reflexivity|]. exfalso.
      assert (Hx : In x (x :: l)) by now left. rewrite <- E in Hx. apply filter_In in Hx.
      destruct (proj1 (format_conflicts f tl Et)) as (w & Hw & L); [exists x; exact Hx|]. apply (N w Hw L).
  - cbn [bind]. assert (U : forall f', has_format t f' -> go_usable f') by (intros f' H'; apply format_of_iff in H'; congruence).
    split; [|intros [_ ->]; reflexivity]. intros H. split; [exact U|].
    destruct (validate_formats types); cbn [bind app] in H; [exact H | discriminate].
Qed.

Lemma validate_formats_returns types :
  (exists errs, validate_formats types = Ok errs) <-> forall t r f, In (t, r) types -> has_format t f -> format_over all_letters f.
Proof.
  induction types as [|[t r] types IH]; cbn [validate_formats]; [split; [intros _ t r f [] | eauto]|]. split.
  - intros (errs & H) t' r' f Hin Hf. destruct (format_of t) as [g|] eqn:Eg.
    + destruct (tokenize g) as [tl|] eqn:Et; cbn [bind] in H; [|discriminate].
      destruct (validate_formats types) as [e2|] eqn:E2; cbn [bind] in H; [|discriminate].
      destruct Hin as [E | Hin]; [|eapply (proj1 IH); eauto]. injection E as <- <-. apply format_of_iff in Hf.
      assert (g = f) by congruence. subst g. apply tokenize_accepts. eauto.
    + cbn [bind] in H. destruct (validate_formats types) as [e2|] eqn:E2; cbn [bind] in H; [|discriminate].
      destruct Hin as [E | Hin]; [|eapply (proj1 IH); eauto]. injection E as <- <-. apply format_of_iff in Hf. congruence.
  - intros H. destruct (proj2 IH) as (e2 & E2); [intros t' r' f Hin; apply (H t' r' f); now right|].
    destruct (format_of t) as [g|] eqn:Eg.
    + apply format_of_iff in Eg. assert (F := H t r g (or_introl eq_refl) Eg). apply tokenize_accepts in F. destruct F as (tl & ->).
      cbn [bind]. rewrite E2. cbn. eauto.
    + cbn [bind]. rewrite E2. cbn. eauto.
Qed.

Lemma validate_formats_real types errs e : validate_formats types = Ok errs -> In e errs ->
  exists t f w, In (t, le_ref e) types /\ has_format t f /\ le_kind e = KDirective f /\ In w layout_elements /\ literally w f.
Proof.
  revert errs. induction types as [|[t r] types IH]; cbn [validate_formats]; intros errs H Hin; [injection H as <-; contradiction|].
  destruct (format_of t) as [f|] eqn:Ef.
  - destruct (tokenize f) as [tl|] eqn:Et; cbn [bind] in H; [|discriminate].
    destruct (validate_formats types) as [e2|] eqn:E2; cbn [bind] in H; [|discriminate]. injection H as <-.
    apply in_app_or in Hin. destruct Hin as [Hin | Hin].
    + apply in_map_iff in Hin. destruct Hin as (x & <- & Hx). apply filter_In in Hx.
      destruct (proj1 (format_conflicts f tl Et)) as (w & Hw & L); [exists x; exact Hx|].
      exists t, f, w. split; [now left|]. split; [now apply format_of_iff|]. auto.
    + destruct (IH e2 eq_refl Hin) as (t' & f' & w & A & B). exists t', f', w. split; [now right | exact B].
  - cbn [bind] in H. destruct (validate_formats types) as [e2|] eqn:E2; cbn [bind] in H; [|discriminate]. injection H as <-.
    destruct (IH e2 eq_refl Hin) as (t' & f' & w & A & B). exists t', f', w. split; [now right | exact B].
Qed.
