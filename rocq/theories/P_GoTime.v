From Verif Require Import Base M_Naming M_Strftime S_Strftime P_Naming P_Strftime.
From Coq Require Import String Ascii List Arith NArith Bool Lia.
Import ListNotations.

(** Character-wise conversion. *)
Definition go_of (d : chr) : str :=
  match lookup [37%N; d] STRFTIME_TO_GO with Some g => g | None => [] end.

Fixpoint conv (s : str) : str :=
  match s with
  | [] => []
  | c :: s' =>
      if N.eqb c 37 then
        match s' with
        | d :: s'' => go_of d ++ conv s''
        | [] => []
        end
      else c :: conv s'
  end.

Lemma conv_dir d s : conv (37%N :: d :: s) = go_of d ++ conv s.
Proof. reflexivity. Qed.
Lemma conv_text c s : c <> 37%N -> conv (c :: s) = c :: conv s.
Proof. intros H. simpl. apply N.eqb_neq in H. rewrite H. reflexivity. Qed.

Ltac letters_cases HI :=
  unfold all_letters, s_ in HI; simpl in HI;
  repeat match type of HI with _ \/ _ => destruct HI as [HI|HI] end;
  [subst ..| destruct HI].

Lemma supported_lookup d : In d all_letters ->
  lookup [37%N; d] STRFTIME_TO_GO = Some (go_of d).
Proof. intros HI. letters_cases HI; reflexivity. Qed.

Lemma convert_line_app a b x : convert_line a = Ok x ->
  convert_line (a ++ b) = do y <- convert_line b; Ok (x ++ y).
Proof.
  revert x; induction a as [|t a IH]; simpl; intros x H.
  - injection H as <-. destruct (convert_line b); reflexivity.
  - destruct (convert_token t) as [u|]; [|discriminate]. simpl in *.
    destruct (convert_line a) as [v|]; [|discriminate]. simpl in *. injection H as <-.
    rewrite (IH v eq_refl). destruct (convert_line b); simpl; [|reflexivity].
    rewrite app_assoc. reflexivity.
Qed.

Lemma convert_flush acc : convert_line (flush acc) = Ok (rev acc).
Proof. destruct acc; [reflexivity|]. simpl. rewrite app_nil_r. reflexivity. Qed.

Lemma lex_conv s : forall acc ts,
  lex_go acc s = Ok ts -> format_over all_letters s -> convert_line ts = Ok (rev acc ++ conv s).
Proof.
  induction s as [|c|c d s IH1 IH2] using str_ind2; intros acc ts H F.
  - injection H as <-. rewrite convert_flush, app_nil_r. reflexivity.
  - simpl in H. destruct (N.eqb c pct) eqn:E; [discriminate|]. injection H as <-.
    change [Text (rev acc ++ [c])] with (flush (c :: acc)).
    rewrite convert_flush. simpl. unfold pct in E. rewrite E. reflexivity.
  - rewrite lex_go_cons2 in H. unfold pct in H. destruct (N.eqb c 37) eqn:E.
    + apply N.eqb_eq in E. subst c.
      inversion F as [|? ? Hc _|? ? HI Fs]; subst; [congruence|].
      destruct (_ || _); [|discriminate].
      destruct (lex_go [] s) as [ts'|] eqn:E2; [|discriminate]. injection H as <-.
      rewrite (convert_line_app _ _ _ (convert_flush acc)).
      cbn [convert_line convert_token].
      rewrite (supported_lookup d HI). cbn [bind]. rewrite (IH1 [] ts' E2 Fs). reflexivity.
    + apply IH2 in H.
      * rewrite H. simpl rev. rewrite <- app_assoc, (conv_text c) by (apply N.eqb_neq, E).
        reflexivity.
      * inversion F; subst; [assumption|discriminate].
Qed.

Lemma convert_lines_conv ls : forall tl, lex_lines ls = Ok tl ->
  Forall (format_over all_letters) ls -> convert_lines tl = Ok (map conv ls).
Proof.
  induction ls as [|l ls IH]; simpl; intros tl H F.
  - injection H as <-. reflexivity.
  - inversion F; subst.
    destruct (lex_line l) as [t|] eqn:E1; [|discriminate].
    destruct (lex_lines ls) as [ts|] eqn:E2; [|discriminate].
    injection H as <-. simpl.
    rewrite (lex_conv l [] t E1) by assumption. simpl.
    rewrite (IH ts eq_refl) by assumption. reflexivity.
Qed.

Lemma convert_formula s : format_over all_letters s ->
  convert s = (let result := join [10%N] (map conv (splitlines s)) in
               if ends_with [10%N] result then Raise ViolationError else Ok result).
Proof.
  intros F. pose proof F as F'. apply tokenize_accepts in F' as [tl E]. unfold convert. rewrite E.
  apply tokenize_inv in E as [E1 _]. cbn [bind].
  rewrite (convert_lines_conv _ _ E1) by (apply (splitlines_format _ _ all_nb), F). reflexivity.
Qed.

(** ** Lines *)

Lemma conv_break l r : format_over all_letters l ->
  conv (l ++ 10%N :: r) = conv l ++ 10%N :: conv r.
Proof.
  intros F. induction F as [|c s Hc Fs IH|c s HI Fs IH].
  - reflexivity.
  - cbn [app]. rewrite !conv_text by exact Hc. rewrite IH. reflexivity.
  - cbn [app]. rewrite !conv_dir, IH, <- app_assoc. reflexivity.
Qed.

Lemma conv_join ls : Forall (format_over all_letters) ls ->
  conv (join [10%N] ls) = join [10%N] (map conv ls).
Proof.
  induction ls as [|l ls IH]; intros F; [reflexivity|].
  inversion F as [|? ? F1 F2]; subst. destruct ls as [|l2 ls]; [reflexivity|].
  change (join [10%N] (l :: l2 :: ls)) with (l ++ 10%N :: join [10%N] (l2 :: ls)).
  rewrite conv_break by exact F1. rewrite IH by exact F2. reflexivity.
Qed.

Lemma ends_with_lf_app a b : b <> [] -> ends_with [10%N] (a ++ b) = ends_with [10%N] b.
Proof.
  intros H. unfold ends_with. rewrite rev_app_distr.
  assert (rev b <> []).
  { intros E. apply H. rewrite <- (rev_involutive b), E. reflexivity. }
  destruct (rev b) as [|x q]; [congruence|]. simpl. reflexivity.
Qed.

Lemma conv_ends_lf s : format_over all_letters s ->
  ends_with [10%N] (conv s) = ends_with [10%N] s.
Proof.
  intros F. induction F as [|c s Hc Fs IH|c s HI Fs IH].
  - reflexivity.
  - rewrite conv_text by exact Hc.
    destruct s as [|x s]; [reflexivity|].
    change (c :: x :: s) with ([c] ++ x :: s). rewrite ends_with_lf_app by discriminate.
    destruct (conv (x :: s)) as [|y t] eqn:E.
    + exfalso. inversion Fs as [|? ? Hx _|? ? HI _]; subst.
      * rewrite conv_text in E by exact Hx. discriminate.
      * rewrite conv_dir in E. apply app_eq_nil in E as [E _]. letters_cases HI; vm_compute in E; discriminate.
    + change (c :: y :: t) with ([c] ++ y :: t). rewrite ends_with_lf_app by discriminate.
      exact IH.
  - rewrite conv_dir. destruct s as [|x s].
    + simpl conv. rewrite app_nil_r. letters_cases HI; reflexivity.
    + change (37%N :: c :: x :: s) with ([37%N; c] ++ x :: s).
      rewrite (ends_with_lf_app [37%N; c]) by discriminate.
      destruct (conv (x :: s)) as [|y t] eqn:E.
      * exfalso. inversion Fs as [|? ? Hx _|? ? HI' _]; subst.
        -- rewrite conv_text in E by exact Hx. discriminate.
        -- rewrite conv_dir in E. apply app_eq_nil in E as [E _]. letters_cases HI'; vm_compute in E; discriminate.
      * rewrite ends_with_lf_app by discriminate. exact IH.
Qed.

Lemma convert_lf s : format_over all_letters s -> lf_separated s -> convert s = Ok (conv s).
Proof.
  intros F [HJ HE]. rewrite convert_formula by exact F.
  rewrite <- conv_join by (apply (splitlines_format _ _ all_nb), F). rewrite HJ. cbv zeta.
  rewrite conv_ends_lf, HE by exact F. reflexivity.
Qed.

(** ** What the validator guarantees about literal text *)

Fixpoint nc (w : str) (s : str) : Prop :=
  match s with
  | [] => True
  | c :: s' =>
      if N.eqb c 37 then match s' with _ :: s'' => nc w s'' | [] => True end
      else starts_with w s = false /\ nc w s'
  end.

Lemma lex_go_text w : ~ In 37%N w -> forall acc r, lex_go acc (w ++ r) = lex_go (rev w ++ acc) r.
Proof.
  induction w as [|c w IH]; intros H acc r; [reflexivity|].
  cbn [app]. cbn [lex_go]. destruct (N.eqb c pct) eqn:E.
  - apply N.eqb_eq in E. subst. exfalso. apply H. left. reflexivity.
  - rewrite IH by (intros HI; apply H; right; exact HI). simpl. rewrite <- app_assoc. reflexivity.
Qed.

Lemma lex_go_first s : forall acc ts, acc <> [] -> lex_go acc s = Ok ts ->
  exists t ts', ts = Text (rev acc ++ t) :: ts'.
Proof.
  induction s as [|c|c d s IH1 IH2] using str_ind2; intros acc ts Ha H.
  - injection H as <-. destruct acc; [congruence|]. exists [], []. rewrite app_nil_r. reflexivity.
  - simpl in H. destruct (N.eqb c pct); [discriminate|]. injection H as <-. exists [c], []. reflexivity.
  - rewrite lex_go_cons2 in H. destruct (N.eqb c pct).
    + destruct (_ || _); [|discriminate]. destruct (lex_go [] s); [|discriminate].
      injection H as <-. destruct acc as [|x acc]; [congruence|].
      exists [], (Directive [c; d] :: a). rewrite app_nil_r. reflexivity.
    + apply IH2 in H as [t [ts' ->]]; [|discriminate].
      exists (c :: t), ts'. simpl. rewrite <- app_assoc. reflexivity.
Qed.

Lemma substring_in_app w a b : substring_in w (a ++ w ++ b) = true.
Proof.
  induction a as [|x a IH].
  - cbn [app]. destruct (w ++ b) as [|y t] eqn:E.
    + apply app_eq_nil in E as [-> _]. reflexivity.
    + cbn [substring_in]. apply orb_true_iff. left. rewrite <- E. apply starts_with_app. eauto.
  - cbn [app substring_in]. rewrite IH. apply orb_true_r.
Qed.

Lemma lex_go_nc w s : w <> [] -> ~ In 37%N w -> forall acc ts,
  lex_go acc s = Ok ts ->
  (forall c, In (Text c) ts -> substring_in w c = false) -> nc w s.
Proof.
  intros Hne Hp. induction s as [|c|c d s IH1 IH2] using str_ind2; intros acc ts H Ht.
  - exact I.
  - simpl. destruct (N.eqb c 37) eqn:E; [exact I|]. split; [|exact I].
    destruct (starts_with w [c]) eqn:Es; [|reflexivity]. exfalso.
    apply starts_with_app in Es as [r Er]. rewrite Er in H.
    rewrite lex_go_text in H by exact Hp.
    apply lex_go_first in H as [t [ts' ->]].
    + specialize (Ht _ (or_introl eq_refl)). rewrite rev_app_distr, rev_involutive in Ht.
      rewrite <- app_assoc, substring_in_app in Ht. discriminate.
    + intros E0. apply app_eq_nil in E0 as [E0 _]. apply Hne.
      rewrite <- (rev_involutive w), E0. reflexivity.
  - cbn [nc]. destruct (N.eqb c 37) eqn:E.
    + rewrite lex_go_cons2 in H. unfold pct in H. rewrite E in H.
      destruct (_ || _); [|discriminate]. destruct (lex_go [] s) as [ts'|] eqn:E2; [|discriminate].
      injection H as <-. apply (IH1 [] ts' E2). intros x Hx. apply Ht.
      apply in_app_iff. right. right. exact Hx.
    + split.
      * destruct (starts_with w (c :: d :: s)) eqn:Es; [|reflexivity]. exfalso.
        apply starts_with_app in Es as [r Er]. rewrite Er in H.
        rewrite lex_go_text in H by exact Hp.
        apply lex_go_first in H as [t [ts' ->]].
        -- specialize (Ht _ (or_introl eq_refl)). rewrite rev_app_distr, rev_involutive in Ht.
           rewrite <- app_assoc, substring_in_app in Ht. discriminate.
        -- intros E0. apply app_eq_nil in E0 as [E0 _]. apply Hne.
           rewrite <- (rev_involutive w), E0. reflexivity.
      * rewrite lex_go_cons2 in H. unfold pct in H. rewrite E in H. apply (IH2 _ _ H Ht).
Qed.

Lemma starts_with_stop w c x r : ~ In c w -> starts_with w (x ++ c :: r) = starts_with w x.
Proof.
  revert x; induction w as [|a w IH]; intros x H; [reflexivity|].
  destruct x as [|y x]; simpl.
  - destruct (N.eqb a c) eqn:E; [|reflexivity]. apply N.eqb_eq in E. subst.
    exfalso. apply H. left. reflexivity.
  - rewrite IH; [reflexivity|]. intros HI. apply H. right. exact HI.
Qed.

Lemma nc_break w l r : ~ In 10%N w -> starts_with w (10%N :: r) = false ->
  format_over all_letters l -> nc w l -> nc w r -> nc w (l ++ 10%N :: r).
Proof.
  intros Hw H0 F. induction F as [|c s Hc Fs IH|c s HI Fs IH]; intros H1 H2.
  - simpl. split; [exact H0|exact H2].
  - cbn [app nc] in *. apply N.eqb_neq in Hc. rewrite Hc in *. destruct H1 as [H1 H3].
    split; [|apply IH; assumption].
    change (c :: s ++ 10%N :: r) with ((c :: s) ++ 10%N :: r). rewrite starts_with_stop; assumption.
  - cbn [app nc] in *. simpl in *. apply IH; assumption.
Qed.

Lemma nc_join w ls : ~ In 10%N w -> w <> [] -> Forall (format_over all_letters) ls ->
  Forall (nc w) ls -> nc w (join [10%N] ls).
Proof.
  intros Hw Hne F N. induction ls as [|l ls IH]; [exact I|].
  inversion F; inversion N; subst. destruct ls as [|l2 ls]; [assumption|].
  change (join [10%N] (l :: l2 :: ls)) with (l ++ 10%N :: join [10%N] (l2 :: ls)).
  apply nc_break; auto.
  destruct w as [|a w]; [congruence|]. simpl.
  destruct (N.eqb a 10) eqn:E; [|reflexivity]. apply N.eqb_eq in E. subst. exfalso. apply Hw. left. reflexivity.
Qed.

Lemma lex_lines_nc w ls : w <> [] -> ~ In 37%N w -> forall tl,
  lex_lines ls = Ok tl ->
  (forall l c, In l tl -> In (Text c) l -> substring_in w c = false) -> Forall (nc w) ls.
Proof.
  intros Hne Hp. induction ls as [|l ls IH]; simpl; intros tl H Ht.
  - constructor.
  - destruct (lex_line l) as [t|] eqn:E1; [|discriminate].
    destruct (lex_lines ls) as [ts|] eqn:E2; [|discriminate]. injection H as <-.
    constructor.
    + apply (lex_go_nc w l Hne Hp [] t E1). intros c Hc. eapply Ht; [left; reflexivity|exact Hc].
    + apply (IH ts eq_refl). intros l' c Hl Hc. eapply Ht; [right; exact Hl|exact Hc].
Qed.

Lemma go_valid_nc w s : In w GO_TIME_FORMAT_DIRECTIVES -> w <> [] -> ~ In 37%N w -> ~ In 10%N w ->
  go_format_valid s = true -> lf_separated s -> nc w s.
Proof.
  intros Hw Hne Hp H10 V [HJ _]. unfold go_format_valid in V.
  destruct (tokenize s) as [tl|] eqn:E; [|discriminate].
  assert (F : format_over all_letters s) by (apply tokenize_accepts; eauto).
  apply tokenize_inv in E as [E1 _].
  rewrite <- HJ. apply nc_join; auto.
  - apply (splitlines_format _ _ all_nb), F.
  - apply (lex_lines_nc w _ Hne Hp tl E1). intros l c Hl Hc.
    apply negb_true_iff in V.
    destruct (substring_in w c) eqn:Es; [|reflexivity].
    rewrite <- V. symmetry. apply existsb_exists. exists l. split; [exact Hl|].
    apply existsb_exists. exists (Text c). split; [exact Hc|]. unfold text_conflicts.
    apply existsb_exists. exists w. auto.
Qed.

(** ** Reading the layout *)

Lemma go_safe_text c s : c <> 37%N -> go_safe (c :: s) ->
  is_digit c = false /\ starts_with (s_ "Mon") (c :: s) = false /\
  starts_with (s_ "P%Z") (c :: s) = false /\ go_safe s.
Proof. intros Hc H. cbn [go_safe] in H. apply N.eqb_neq in Hc. rewrite Hc in H. exact H. Qed.

Lemma go_safe_dir d s : go_safe (37%N :: d :: s) ->
  d <> 97%N /\ d <> 65%N /\
  (d = 98%N -> (forall x r, s = x :: r -> is_lower x = false) /\ starts_with (s_ "%P") s = false) /\
  go_safe s.
Proof. intros H. exact H. Qed.

Lemma nc_text w c s : c <> 37%N -> nc w (c :: s) -> starts_with w (c :: s) = false /\ nc w s.
Proof. intros Hc H. cbn [nc] in H. apply N.eqb_neq in Hc. rewrite Hc in H. exact H. Qed.

(** A head character that no Go layout of a safe directive starts with. *)
Definition not_head (c : chr) : bool :=
  negb (existsb (N.eqb c) (s_ "J0_213pP-M%")).

Lemma starts_conv w : forallb not_head w = true -> forall s,
  format_over all_letters s -> go_safe s ->
  starts_with w (conv s) = true -> starts_with w s = true.
Proof.
  induction w as [|a w IH]; intros Hw s F G H; [reflexivity|].
  simpl in Hw. apply andb_true_iff in Hw as [Ha Hw].
  inversion F as [|c t Hc Ft|d t HI Ft]; subst.
  - discriminate.
  - rewrite conv_text in H by exact Hc. simpl in *.
    apply andb_true_iff in H as [H1 H2]. rewrite H1. simpl.
    apply IH; auto. apply go_safe_text in G; [|exact Hc]. tauto.
  - exfalso. rewrite conv_dir in H. apply go_safe_dir in G as (G1 & G2 & _).
    unfold not_head in Ha. apply negb_true_iff in Ha.
    assert (K : forall b, In b (s_ "J0_213pP-M%") -> N.eqb a b = false).
    { intros b Hb. destruct (N.eqb a b) eqn:E; [|reflexivity].
      rewrite <- Ha. symmetry. apply existsb_exists. exists b. auto. }
    letters_cases HI; try congruence;
      match type of H with
      | starts_with _ (go_of ?d ++ _) = true =>
          let g := eval vm_compute in (go_of d) in change (go_of d) with g in H
      end;
      cbn [app starts_with] in H; rewrite K in H by (simpl; auto 15); discriminate.
Qed.

Ltac dcase HI H :=
  letters_cases HI; try congruence;
  match type of H with
  | context [go_of ?d] => let g := eval vm_compute in (go_of d) in change (go_of d) with g in H
  end; cbn [app] in H; try discriminate.

(** Heads that can follow. *)
Lemma conv_no_00 s : format_over all_letters s -> go_safe s ->
  starts_with (s_ "00") (conv s) = false.
Proof.
  intros F G. destruct (starts_with _ (conv s)) eqn:H; [|reflexivity]. exfalso.
  inversion F as [|c t Hc Ft|d t HI Ft]; subst.
  - discriminate.
  - rewrite conv_text in H by exact Hc. apply go_safe_text in G as [G _]; [|exact Hc].
    cbn [s_ list_ascii_of_string map starts_with] in H.
    apply andb_true_iff in H as [H _]. apply N.eqb_eq in H. subst. discriminate.
  - rewrite conv_dir in H. apply go_safe_dir in G as (G1 & G2 & _). dcase HI H.
Qed.

Lemma conv_no_006 s : format_over all_letters s -> go_safe s ->
  starts_with (s_ "006") (conv s) = false.
Proof.
  intros F G. destruct (starts_with (s_ "006") (conv s)) eqn:H; [|reflexivity].
  rewrite <- (conv_no_00 s F G). symmetry. apply starts_with_app in H as [r ->]. reflexivity.
Qed.

Lemma conv_no_07 s : format_over all_letters s -> go_safe s ->
  starts_with (s_ "07") (conv s) = false.
Proof.
  intros F G. destruct (starts_with _ (conv s)) eqn:H; [|reflexivity]. exfalso.
  inversion F as [|c t Hc Ft|d t HI Ft]; subst.
  - discriminate.
  - rewrite conv_text in H by exact Hc. apply go_safe_text in G as [G _]; [|exact Hc].
    cbn [s_ list_ascii_of_string map starts_with] in H.
    apply andb_true_iff in H as [H _]. apply N.eqb_eq in H. subst. discriminate.
  - rewrite conv_dir in H. apply go_safe_dir in G as (G1 & G2 & _). dcase HI H.
Qed.

Lemma conv_starts_2 s : format_over all_letters s -> go_safe s ->
  starts_with (s_ "2") (conv s) = true -> starts_with (s_ "2006") (conv s) = true.
Proof.
  intros F G H.
  inversion F as [|c t Hc Ft|d t HI Ft]; subst.
  - discriminate.
  - exfalso. rewrite conv_text in H by exact Hc. apply go_safe_text in G as [G _]; [|exact Hc].
    cbn [s_ list_ascii_of_string map starts_with] in H.
    apply andb_true_iff in H as [H _]. apply N.eqb_eq in H. subst. discriminate.
  - rewrite conv_dir in *. apply go_safe_dir in G as (G1 & G2 & _). dcase HI H. reflexivity.
Qed.

Lemma conv_lower s : format_over all_letters s -> go_safe s ->
  (forall x r, s = x :: r -> is_lower x = false) -> starts_with (s_ "%P") s = false ->
  starts_with_lower (conv s) = false.
Proof.
  intros F G HL HP. destruct (starts_with_lower (conv s)) eqn:H; [|reflexivity]. exfalso.
  inversion F as [|c t Hc Ft|d t HI Ft]; subst.
  - discriminate.
  - rewrite conv_text in H by exact Hc. simpl in H. rewrite (HL c t eq_refl) in H. discriminate.
  - rewrite conv_dir in H. apply go_safe_dir in G as (G1 & G2 & _). dcase HI H.
Qed.

Lemma not_lower_not_uary s : starts_with_lower s = false -> starts_with (s_ "uary") s = false.
Proof.
  destruct s as [|c s]; [reflexivity|]. simpl. intros H.
  destruct c as [|p]; [reflexivity|]. simpl.
  destruct (Pos.eqb_spec 117 p) as [<-|]; [discriminate|reflexivity].
Qed.

Lemma conv_P_M s : format_over all_letters s -> go_safe s ->
  starts_with (s_ "M") (conv s) = true ->
  starts_with (s_ "M") s = true \/ starts_with (s_ "%Z") s = true.
Proof.
  intros F G H.
  inversion F as [|c t Hc Ft|d t HI Ft]; subst.
  - discriminate.
  - left. rewrite conv_text in H by exact Hc. exact H.
  - right. rewrite conv_dir in *. apply go_safe_dir in G as (G1 & G2 & _). dcase HI H. reflexivity.
Qed.

Lemma conv_dot s : format_over all_letters s -> go_safe s -> forall d r,
  conv s = d :: r -> N.eqb d 48 || N.eqb d 57 = true ->
  starts_digit (skipn (run_length d (d :: r)) (d :: r)) = true.
Proof.
  intros F G x r H Hx.
  inversion F as [|c t Hc Ft|d t HI Ft]; subst.
  - discriminate.
  - exfalso. rewrite conv_text in H by exact Hc. apply go_safe_text in G as [G _]; [|exact Hc].
    injection H as -> _. apply orb_true_iff in Hx as [Hx|Hx]; apply N.eqb_eq in Hx; subst; discriminate.
  - rewrite conv_dir in H. apply go_safe_dir in G as (G1 & G2 & _).
    dcase HI H; injection H as <- <-; simpl in Hx; try discriminate; reflexivity.
Qed.

(** A literal character is read literally. *)
Lemma chunk_literal c s : c <> 37%N -> format_over all_letters s -> go_safe (c :: s) ->
  starts_with (s_ "Jan") (c :: s) = false -> starts_with (s_ "MST") (c :: s) = false ->
  starts_with (s_ "PM") (c :: s) = false -> starts_with (s_ "pm") (c :: s) = false ->
  chunk_at (c :: conv s) = None.
Proof.
  intros Hc F G NJ NM NP Np.
  apply go_safe_text in G as (Gd & GM & GP & Gs); [|exact Hc].
  unfold chunk_at.
  destruct (N.eqb c 74) eqn:E1.
  { apply N.eqb_eq in E1. subst c.
    change (starts_with (s_ "Jan") (74%N :: conv s)) with (starts_with (s_ "an") (conv s)).
    change (starts_with (s_ "Jan") (74%N :: s)) with (starts_with (s_ "an") s) in NJ.
    destruct (starts_with (s_ "an") (conv s)) eqn:E; [|reflexivity].
    apply starts_conv in E; [congruence|reflexivity|assumption|assumption]. }
  destruct (N.eqb c 77) eqn:E2.
  { apply N.eqb_eq in E2. subst c.
    change (starts_with (s_ "Monday") (77%N :: conv s)) with (starts_with (s_ "onday") (conv s)).
    change (starts_with (s_ "Mon") (77%N :: conv s)) with (starts_with (s_ "on") (conv s)).
    change (starts_with (s_ "MST") (77%N :: conv s)) with (starts_with (s_ "ST") (conv s)).
    change (starts_with (s_ "Mon") (77%N :: s)) with (starts_with (s_ "on") s) in GM.
    change (starts_with (s_ "MST") (77%N :: s)) with (starts_with (s_ "ST") s) in NM.
    destruct (starts_with (s_ "on") (conv s)) eqn:Eo.
    - apply starts_conv in Eo; [congruence|reflexivity|assumption|assumption].
    - destruct (starts_with (s_ "onday") (conv s)) eqn:Ed.
      + apply starts_with_app in Ed as [r Er]. rewrite Er in Eo. discriminate.
      + cbn [andb]. destruct (starts_with (s_ "ST") (conv s)) eqn:Es; [|reflexivity].
        apply starts_conv in Es; [congruence|reflexivity|assumption|assumption]. }
  destruct (N.eqb c 48) eqn:E3; [apply N.eqb_eq in E3; subst; discriminate|].
  destruct (N.eqb c 49) eqn:E4; [apply N.eqb_eq in E4; subst; discriminate|].
  destruct (N.eqb c 50) eqn:E5; [apply N.eqb_eq in E5; subst; discriminate|].
  destruct (N.eqb c 95) eqn:E6.
  { apply N.eqb_eq in E6. subst c.
    change (starts_with (s_ "_2006") (95%N :: conv s)) with (starts_with (s_ "2006") (conv s)).
    change (starts_with (s_ "_2") (95%N :: conv s)) with (starts_with (s_ "2") (conv s)).
    destruct (starts_with (s_ "2") (conv s)) eqn:E.
    - apply conv_starts_2 in E; [|assumption|assumption]. rewrite E. reflexivity.
    - destruct (starts_with (s_ "2006") (conv s)); reflexivity. }
  destruct (N.eqb c 51) eqn:E7; [apply N.eqb_eq in E7; subst; discriminate|].
  destruct (N.eqb c 52) eqn:E8; [apply N.eqb_eq in E8; subst; discriminate|].
  destruct (N.eqb c 53) eqn:E9; [apply N.eqb_eq in E9; subst; discriminate|].
  destruct (N.eqb c 80) eqn:E10.
  { apply N.eqb_eq in E10. subst c.
    change (starts_with (s_ "PM") (80%N :: conv s)) with (starts_with (s_ "M") (conv s)).
    destruct (starts_with (s_ "M") (conv s)) eqn:E; [|reflexivity].
    apply conv_P_M in E as [E|E]; [| |assumption|assumption].
    - change (starts_with (s_ "PM") (80%N :: s)) with (starts_with (s_ "M") s) in NP. congruence.
    - change (starts_with (s_ "P%Z") (80%N :: s)) with (starts_with (s_ "%Z") s) in GP. congruence. }
  destruct (N.eqb c 112) eqn:E11.
  { apply N.eqb_eq in E11. subst c.
    change (starts_with (s_ "pm") (112%N :: conv s)) with (starts_with (s_ "m") (conv s)).
    destruct (starts_with (s_ "m") (conv s)) eqn:E; [|reflexivity].
    apply starts_conv in E; [|reflexivity|assumption|assumption].
    change (starts_with (s_ "pm") (112%N :: s)) with (starts_with (s_ "m") s) in Np. congruence. }
  pose proof (conv_no_07 s F Gs) as H07.
  assert (H07' : forall w, starts_with (s_ "07" ++ w) (conv s) = false).
  { intros w. destruct (starts_with (s_ "07" ++ w) (conv s)) eqn:E; [|reflexivity].
    apply starts_with_app in E as [r Er]. rewrite Er, <- app_assoc in H07. discriminate. }
  destruct (N.eqb c 45) eqn:E12.
  { apply N.eqb_eq in E12. subst c.
    change (starts_with (s_ "-070000") (45%N :: conv s)) with (starts_with (s_ "07" ++ s_ "0000") (conv s)).
    change (starts_with (s_ "-07:00:00") (45%N :: conv s)) with (starts_with (s_ "07" ++ s_ ":00:00") (conv s)).
    change (starts_with (s_ "-0700") (45%N :: conv s)) with (starts_with (s_ "07" ++ s_ "00") (conv s)).
    change (starts_with (s_ "-07:00") (45%N :: conv s)) with (starts_with (s_ "07" ++ s_ ":00") (conv s)).
    change (starts_with (s_ "-07") (45%N :: conv s)) with (starts_with (s_ "07" ++ s_ "") (conv s)).
    rewrite !H07'. reflexivity. }
  destruct (N.eqb c 90) eqn:E13.
  { apply N.eqb_eq in E13. subst c.
    change (starts_with (s_ "Z070000") (90%N :: conv s)) with (starts_with (s_ "07" ++ s_ "0000") (conv s)).
    change (starts_with (s_ "Z07:00:00") (90%N :: conv s)) with (starts_with (s_ "07" ++ s_ ":00:00") (conv s)).
    change (starts_with (s_ "Z0700") (90%N :: conv s)) with (starts_with (s_ "07" ++ s_ "00") (conv s)).
    change (starts_with (s_ "Z07:00") (90%N :: conv s)) with (starts_with (s_ "07" ++ s_ ":00") (conv s)).
    change (starts_with (s_ "Z07") (90%N :: conv s)) with (starts_with (s_ "07" ++ s_ "") (conv s)).
    rewrite !H07'. reflexivity. }
  destruct (N.eqb c 46) eqn:E14; [|reflexivity].
  destruct (conv s) as [|d r] eqn:Ec; [reflexivity|].
  destruct (N.eqb d 48 || N.eqb d 57) eqn:Ed; [|reflexivity]. cbv zeta.
  rewrite (conv_dot s F Gs d r Ec Ed). reflexivity.
Qed.

Lemma layout_skip a b : layout_items (length a) (a ++ b) = layout_items 0 b.
Proof. induction a as [|x a IH]; [reflexivity|exact IH]. Qed.

Lemma layout_chunk f a b : a <> [] -> chunk_at (a ++ b) = Some (f, length a) ->
  layout_items 0 (a ++ b) = Field f :: layout_items 0 b.
Proof.
  destruct a as [|x a]; [congruence|]. intros _ H. cbn [app] in *.
  cbn [layout_items]. rewrite H. f_equal.
  replace (length (x :: a) - 1) with (length a) by (simpl; lia). apply layout_skip.
Qed.

Lemma chunk_dir d s i : In d all_letters -> format_over all_letters s ->
  go_safe (37%N :: d :: s) -> directive_field d = Some i ->
  layout_items 0 (go_of d ++ conv s) = i :: layout_items 0 (conv s).
Proof.
  intros HI F G Hi. apply go_safe_dir in G as (G1 & G2 & Gb & Gs).
  letters_cases HI; try congruence;
    vm_compute in Hi; injection Hi as <-;
    try (apply layout_chunk; [discriminate|]; reflexivity).
  - (* %b *)
    destruct (Gb eq_refl) as [HL HP].
    apply (layout_chunk stdMonth (s_ "Jan")); [discriminate|].
    pose proof (conv_lower s F Gs HL HP) as Hlow.
    pose proof (not_lower_not_uary _ Hlow) as Hu.
    unfold chunk_at. cbn [app s_ list_ascii_of_string map] .
    change (starts_with _ _) with (starts_with (s_ "uary") (conv s)) at 2.
    rewrite Hu. cbn [skipn]. rewrite Hlow. reflexivity.
  - (* %e *)
    apply (layout_chunk stdUnderDay (s_ "_2")); [discriminate|].
    change (chunk_at (s_ "_2" ++ conv s)) with
      (if starts_with (s_ "006") (conv s) then None else Some (stdUnderDay, 2)).
    rewrite (conv_no_006 s F Gs). reflexivity.
  - (* %z *)
    apply (layout_chunk stdNumTZ (s_ "-0700")); [discriminate|].
    change (chunk_at (s_ "-0700" ++ conv s)) with
      (if starts_with (s_ "00") (conv s) then Some (stdNumSecondsTz, 7) else Some (stdNumTZ, 5)).
    rewrite (conv_no_00 s F Gs). reflexivity.
  - (* %% *) reflexivity.
Qed.

Lemma directive_known d : In d all_letters -> exists i, directive_field d = Some i.
Proof. intros HI. letters_cases HI; vm_compute; eauto. Qed.

Lemma layout_faithful s : format_over all_letters s -> go_safe s ->
  nc (s_ "Jan") s -> nc (s_ "MST") s -> nc (s_ "PM") s -> nc (s_ "pm") s ->
  layout_items 0 (conv s) = strftime_items s.
Proof.
  intros F. induction F as [|c s Hc Fs IH|d s HI Fs IH]; intros G NJ NM NP Np.
  - reflexivity.
  - rewrite conv_text by exact Hc.
    pose proof (go_safe_text _ _ Hc G) as (_ & _ & _ & Gs).
    apply nc_text in NJ as [NJ NJ']; [|exact Hc]. apply nc_text in NM as [NM NM']; [|exact Hc].
    apply nc_text in NP as [NP NP']; [|exact Hc]. apply nc_text in Np as [Np Np']; [|exact Hc].
    assert (E : layout_items 0 (c :: conv s) = Lit c :: layout_items 0 (conv s)).
    { cbn [layout_items]. rewrite chunk_literal; auto. }
    rewrite E, IH by assumption. cbn [strftime_items].
    apply N.eqb_neq in Hc. rewrite Hc. reflexivity.
  - rewrite conv_dir. destruct (directive_known d HI) as [i Hi].
    rewrite (chunk_dir d s i HI Fs G Hi). cbn [strftime_items]. rewrite N.eqb_refl, Hi.
    f_equal. apply IH; try assumption. apply go_safe_dir in G. tauto.
Qed.

Lemma go_conversion_faithful s :
  go_format_valid s = true -> lf_separated s -> go_safe s ->
  exists layout, convert s = Ok layout /\ go_layout layout = strftime_items s.
Proof.
  intros V L G.
  assert (F : format_over all_letters s).
  { apply tokenize_accepts. unfold go_format_valid in V.
    destruct (tokenize s) as [tl|]; [eauto|discriminate]. }
  exists (conv s). split; [apply convert_lf; assumption|].
  unfold go_layout. apply layout_faithful; try assumption;
    (apply go_valid_nc; [simpl; auto 25|discriminate|simpl; intuition discriminate
                        |simpl; intuition discriminate|exact V|exact L]).
Qed.
