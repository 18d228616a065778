From Verif Require Import Base M_Naming M_Strftime S_Strftime P_Naming.
From Coq Require Import String Ascii List Arith NArith Bool Lia.
Import ListNotations.

(** ** Lexing one line *)

Lemma flush_content acc : concat (map content (flush acc)) = rev acc.
Proof. destruct acc; [reflexivity|]. simpl. rewrite app_nil_r. reflexivity. Qed.

Lemma lex_go_cons2 acc c d s :
  lex_go acc (c :: d :: s) =
  if N.eqb c pct then
    if is_alpha d || N.eqb d pct then
      do ts <- lex_go [] s; Ok (flush acc ++ Directive [c; d] :: ts)
    else Raise LexeryError
  else lex_go (c :: acc) (d :: s).
Proof. reflexivity. Qed.

Lemma lex_go_content s : forall acc ts,
  lex_go acc s = Ok ts -> concat (map content ts) = rev acc ++ s.
Proof.
  induction s as [|c|c d s IH1 IH2] using str_ind2; intros acc ts H.
  - injection H as <-. rewrite flush_content, app_nil_r. reflexivity.
  - simpl in H. destruct (N.eqb c pct); [discriminate|].
    injection H as <-. apply (flush_content (c :: acc)).
  - rewrite lex_go_cons2 in H. destruct (N.eqb c pct) eqn:E.
    + destruct (is_alpha d || N.eqb d pct); [|discriminate].
      destruct (lex_go [] s) as [ts'|] eqn:E2; [|discriminate].
      injection H as <-. rewrite map_app, concat_app, flush_content. simpl.
      rewrite (IH1 [] ts' E2). reflexivity.
    + apply IH2 in H. rewrite H. simpl. rewrite <- app_assoc. reflexivity.
Qed.

(** Shape of the tokens. *)
Definition token_ok (t : token) : Prop :=
  match t with
  | Directive c => exists d, c = [37%N; d] /\ (is_alpha d = true \/ d = 37%N)
  | Text c => c <> [] /\ ~ In 37%N c
  end.

Lemma flush_ok acc : ~ In 37%N acc -> Forall token_ok (flush acc).
Proof.
  intros H. destruct acc as [|c acc]; [constructor|]. constructor; [|constructor].
  split.
  - simpl. destruct (rev acc); discriminate.
  - rewrite <- in_rev. exact H.
Qed.

Lemma lex_go_ok s : forall acc ts,
  ~ In 37%N acc -> lex_go acc s = Ok ts -> Forall token_ok ts.
Proof.
  induction s as [|c|c d s IH1 IH2] using str_ind2; intros acc ts Ha H.
  - injection H as <-. apply flush_ok, Ha.
  - simpl in H. destruct (N.eqb c pct) eqn:E; [discriminate|].
    injection H as <-. apply (flush_ok (c :: acc)). apply N.eqb_neq in E.
    unfold pct in E. simpl. intuition.
  - rewrite lex_go_cons2 in H. destruct (N.eqb c pct) eqn:E.
    + destruct (is_alpha d || N.eqb d pct) eqn:Ed; [|discriminate].
      destruct (lex_go [] s) as [ts'|] eqn:E2; [|discriminate].
      injection H as <-. apply Forall_app. split; [apply flush_ok, Ha|].
      constructor.
      * exists d. apply N.eqb_eq in E. subst c. split; [reflexivity|].
        apply orb_true_iff in Ed as [Ed|Ed]; [auto|]. right. apply N.eqb_eq, Ed.
      * apply (IH1 [] ts'); [intros []|exact E2].
    + apply IH2 in H; [exact H|]. apply N.eqb_neq in E. unfold pct in E. simpl. intuition.
Qed.

(** ** Acceptance of one line *)

Definition dirs (letters : str) : list str := map (fun c => [37%N; c]) letters.
Definition letters_ok (letters : str) : Prop :=
  forall c, In c letters -> (is_alpha c = true \/ c = 37%N).

Lemma mem_dirs letters d : mem [37%N; d] (dirs letters) = true <-> In d letters.
Proof.
  rewrite mem_In. unfold dirs. rewrite in_map_iff. split.
  - intros [x [E H]]. injection E as ->. exact H.
  - intros H. exists d. auto.
Qed.

Definition lex_within (letters : str) (r : res (list token)) : Prop :=
  exists ts, r = Ok ts /\ forallb (directive_in (dirs letters)) ts = true.

Lemma flush_within letters acc : forallb (directive_in (dirs letters)) (flush acc) = true.
Proof. destruct acc; reflexivity. Qed.

Lemma lex_go_within letters s : letters_ok letters -> forall acc,
  lex_within letters (lex_go acc s) <-> format_over letters s.
Proof.
  intros HL. induction s as [|c|c d s IH1 IH2] using str_ind2; intros acc.
  - split; [constructor|]. intros _. exists (flush acc). split; [reflexivity|apply flush_within].
  - simpl. destruct (N.eqb c pct) eqn:E.
    + split.
      * intros [ts [H _]]. discriminate.
      * intros H. apply N.eqb_eq in E. subst c. inversion H; subst. unfold pct in *. congruence.
    + apply N.eqb_neq in E. split.
      * intros _. constructor; [exact E|constructor].
      * intros _. exists (flush (c :: acc)). split; [reflexivity|apply flush_within].
  - rewrite lex_go_cons2. destruct (N.eqb c pct) eqn:E.
    + apply N.eqb_eq in E. subst c. unfold pct.
      split.
      * intros [ts [H Hf]].
        destruct (is_alpha d || N.eqb d 37) eqn:Ed; [|discriminate].
        destruct (lex_go [] s) as [ts'|] eqn:E2; [|discriminate].
        injection H as <-. rewrite forallb_app in Hf. apply andb_true_iff in Hf as [_ Hf].
        cbn [forallb directive_in] in Hf. apply andb_true_iff in Hf as [Hm Hf].
        apply mem_dirs in Hm. apply fo_dir; [exact Hm|].
        apply (IH1 []). exists ts'. auto.
      * intros H. inversion H as [| |? ? HI Hs]; subst; [congruence|].
        assert (is_alpha d || N.eqb d 37 = true) as ->.
        { apply orb_true_iff. destruct (HL _ HI) as [->| ->]; auto. }
        destruct (proj2 (IH1 []) Hs) as [ts' [-> Hf]].
        eexists. split; [reflexivity|]. rewrite forallb_app, flush_within.
        cbn [forallb directive_in]. rewrite (proj2 (mem_dirs letters d) HI). exact Hf.
    + apply N.eqb_neq in E. rewrite (IH2 (c :: acc)). split.
      * intros H. constructor; [exact E|exact H].
      * intros H. inversion H; subst; [assumption|]. unfold pct in E. congruence.
Qed.

(** ** Lines *)

Definition letters_no_break (letters : str) : Prop :=
  forall c, In c letters -> is_linebreak c = false.

Lemma format_over_break letters l c s :
  letters_no_break letters -> is_linebreak c = true ->
  format_over letters (l ++ c :: s) <-> format_over letters l /\ format_over letters s.
Proof.
  intros HL Hc. induction l as [|x|x y l IH1 IH2] using str_ind2.
  - simpl. split.
    + intros H. split; [constructor|]. inversion H; subst; [assumption|discriminate].
    + intros [_ H]. constructor; [|exact H]. intros ->. discriminate.
  - simpl. split.
    + intros H. inversion H as [|? ? Hx Hr|? ? HI Hr]; subst.
      * split; [constructor; [exact Hx|constructor]|]. inversion Hr; subst; [assumption|discriminate].
      * apply HL in HI. congruence.
    + intros [H1 H2]. inversion H1; subst. constructor; [assumption|].
      constructor; [|exact H2]. intros ->. discriminate.
  - cbn [app]. split.
    + intros H. inversion H as [|? ? Hx Hr|? ? HI Hr]; subst.
      * apply IH2 in Hr as [H1 H2]. split; [constructor; assumption|exact H2].
      * apply IH1 in Hr as [H1 H2]. split; [apply fo_dir; assumption|exact H2].
    + intros [H1 H2]. inversion H1 as [|? ? Hx Hr|? ? HI Hr]; subst.
      * constructor; [assumption|]. apply IH2. auto.
      * apply fo_dir; [assumption|]. apply IH1. auto.
Qed.

Lemma lines_go_format letters s : letters_no_break letters -> forall acc,
  format_over letters (rev acc ++ s) <->
  Forall (fun p => format_over letters (fst p)) (lines_go acc s).
Proof.
  intros HL. induction s as [|c|c d s IH1 IH2] using str_ind2; intros acc.
  - rewrite app_nil_r. simpl. destruct acc as [|x acc].
    + split; [constructor|intros _; constructor].
    + split; [intros H; constructor; [exact H|constructor]|].
      intros H. inversion H; assumption.
  - assert (B : forall b, is_linebreak b = true -> forall t,
        format_over letters (rev acc ++ [b]) <->
        Forall (fun p : str * str => format_over letters (fst p)) [(rev acc, t)]).
    { intros b Hb t. rewrite format_over_break by assumption. split.
      - intros [H _]. constructor; [exact H|constructor].
      - intros H. inversion H. split; [assumption|constructor]. }
    cbn -[is_linebreak]. destruct (N.eqb c 13) eqn:E; [|destruct (is_linebreak c) eqn:Bc].
    + apply N.eqb_eq in E. subst c. apply B. reflexivity.
    + apply B. exact Bc.
    + split; [intros H; constructor; [exact H|constructor]|].
      intros H. inversion H; assumption.
  - assert (E0 : lines_go acc (c :: d :: s) =
      if N.eqb c 13 then
        (if N.eqb d 10 then (rev acc, [13; 10]%N) :: lines_go [] s
         else (rev acc, [c]) :: lines_go [] (d :: s))
      else if is_linebreak c then (rev acc, [c]) :: lines_go [] (d :: s)
      else lines_go (c :: acc) (d :: s)) by reflexivity.
    rewrite E0.
    assert (B : is_linebreak c = true -> forall t,
        format_over letters (rev acc ++ c :: d :: s) <->
        Forall (fun p : str * str => format_over letters (fst p)) ((rev acc, t) :: lines_go [] (d :: s))).
    { intros Hb t. rewrite format_over_break by assumption. split.
      - intros [H1 H2]. constructor; [exact H1|]. apply (IH2 []). exact H2.
      - intros H. inversion H; subst. split; [assumption|]. apply (IH2 []). assumption. }
    destruct (N.eqb c 13) eqn:E; [|destruct (is_linebreak c) eqn:Bc].
    + apply N.eqb_eq in E. subst c. destruct (N.eqb d 10) eqn:Ed.
      * apply N.eqb_eq in Ed. subst d.
        rewrite format_over_break by (assumption || reflexivity).
        assert (H10 : format_over letters (10%N :: s) <-> format_over letters s).
        { split; intros H; [inversion H; assumption|constructor; [discriminate|exact H]]. }
        rewrite H10. split.
        -- intros [H1 H2]. constructor; [exact H1|]. apply (IH1 []). exact H2.
        -- intros H. inversion H; subst. split; [assumption|]. apply (IH1 []). assumption.
      * apply B. reflexivity.
    + apply B. reflexivity.
    + rewrite <- (IH2 (c :: acc)). simpl. rewrite <- app_assoc. reflexivity.
Qed.

Lemma splitlines_format letters s : letters_no_break letters ->
  format_over letters s <-> Forall (format_over letters) (splitlines s).
Proof.
  intros HL. unfold splitlines, lines_ends. rewrite Forall_map.
  rewrite <- (lines_go_format letters s HL []). reflexivity.
Qed.

(** ** tokenize *)

Lemma lex_lines_within letters ls : letters_ok letters ->
  (exists tl, lex_lines ls = Ok tl /\ forallb (forallb (directive_in (dirs letters))) tl = true) <->
  Forall (format_over letters) ls.
Proof.
  intros HL. induction ls as [|l ls IH].
  - split; [constructor|]. intros _. exists []. auto.
  - split.
    + intros [tl [H Hf]]. simpl in H.
      destruct (lex_line l) as [t|] eqn:E1; [|discriminate].
      destruct (lex_lines ls) as [ts|] eqn:E2; [|discriminate].
      injection H as <-. simpl in Hf. apply andb_true_iff in Hf as [H1 H2].
      constructor.
      * apply (lex_go_within letters l HL []). exists t. auto.
      * apply IH. eauto.
    + intros H. inversion H as [|? ? H1 H2]; subst.
      apply (lex_go_within letters l HL []) in H1 as [t [E1 F1]].
      apply IH in H2 as [ts [E2 F2]].
      exists (t :: ts). simpl. unfold lex_line. rewrite E1, E2. simpl. rewrite F1. auto.
Qed.

Lemma SUPPORTED_dirs : SUPPORTED_DIRECTIVES = dirs all_letters.
Proof. reflexivity. Qed.
Lemma DATE_dirs : DATE_DIRECTIVES = dirs date_letters.
Proof. reflexivity. Qed.
Lemma TIME_dirs : TIME_DIRECTIVES = dirs time_letters.
Proof. reflexivity. Qed.

Lemma letters_ok_dec letters :
  forallb (fun c => is_alpha c || N.eqb c 37) letters = true -> letters_ok letters.
Proof.
  rewrite forallb_forall. intros H c HI. apply H in HI.
  apply orb_true_iff in HI as [HI|HI]; [auto|]. right. apply N.eqb_eq, HI.
Qed.
Lemma all_ok : letters_ok all_letters.
Proof. apply letters_ok_dec. reflexivity. Qed.
Lemma date_ok : letters_ok date_letters.
Proof. apply letters_ok_dec. reflexivity. Qed.
Lemma time_ok : letters_ok time_letters.
Proof. apply letters_ok_dec. reflexivity. Qed.

Lemma no_break_dec letters :
  forallb (fun c => negb (is_linebreak c)) letters = true -> letters_no_break letters.
Proof.
  rewrite forallb_forall. intros H c HI. apply H in HI.
  apply negb_true_iff in HI. exact HI.
Qed.
Lemma all_nb : letters_no_break all_letters.
Proof. apply no_break_dec. reflexivity. Qed.
Lemma date_nb : letters_no_break date_letters.
Proof. apply no_break_dec. reflexivity. Qed.
Lemma time_nb : letters_no_break time_letters.
Proof. apply no_break_dec. reflexivity. Qed.

Lemma tokenize_inv s tl : tokenize s = Ok tl ->
  lex_lines (splitlines s) = Ok tl /\
  forallb (forallb (directive_in SUPPORTED_DIRECTIVES)) tl = true.
Proof.
  unfold tokenize. destruct (lex_lines (splitlines s)) as [t|]; simpl; [|discriminate].
  destruct (forallb _ t) eqn:E; [|discriminate]. intros [= <-]. auto.
Qed.

Lemma tokenize_accepts s : (exists tl, tokenize s = Ok tl) <-> format_over all_letters s.
Proof.
  rewrite (splitlines_format _ _ all_nb), <- (lex_lines_within _ _ all_ok).
  rewrite <- SUPPORTED_dirs. split.
  - intros [tl H]. apply tokenize_inv in H. eauto.
  - intros [tl [H1 H2]]. exists tl. unfold tokenize. rewrite H1. cbn [bind]. rewrite H2. reflexivity.
Qed.

Lemma lex_lines_content ls : forall tl, lex_lines ls = Ok tl ->
  map (fun l => concat (map content l)) tl = ls.
Proof.
  induction ls as [|l ls IH]; simpl; intros tl H.
  - injection H as <-. reflexivity.
  - destruct (lex_line l) as [t|] eqn:E1; [|discriminate].
    destruct (lex_lines ls) as [ts|] eqn:E2; [|discriminate].
    injection H as <-. simpl. rewrite (IH _ eq_refl). f_equal.
    apply (lex_go_content l []). exact E1.
Qed.

Lemma lex_lines_ok ls : forall tl, lex_lines ls = Ok tl -> Forall (Forall token_ok) tl.
Proof.
  induction ls as [|l ls IH]; simpl; intros tl H.
  - injection H as <-. constructor.
  - destruct (lex_line l) as [t|] eqn:E1; [|discriminate].
    destruct (lex_lines ls) as [ts|] eqn:E2; [|discriminate].
    injection H as <-. constructor; [|apply IH; reflexivity].
    apply (lex_go_ok l []); [intros []|exact E1].
Qed.

Lemma tokenize_lossless s tl : tokenize s = Ok tl ->
  map (fun l => concat (map content l)) tl = splitlines s /\
  Forall (Forall (fun t => match t with
                           | Directive c => In c SUPPORTED_DIRECTIVES
                           | Text c => c <> [] /\ ~ In 37%N c
                           end)) tl.
Proof.
  intros H. apply tokenize_inv in H as [H1 H2]. split; [apply lex_lines_content, H1|].
  apply lex_lines_ok in H1.
  rewrite forallb_forall in H2. rewrite Forall_forall in *. intros l Hl.
  specialize (H1 l Hl). specialize (H2 l Hl). rewrite forallb_forall in H2.
  rewrite Forall_forall in *. intros t Ht. specialize (H1 t Ht). specialize (H2 t Ht).
  destruct t as [c|c]; [apply mem_In, H2|exact H1].
Qed.

Lemma tokenize_raises s e : tokenize s = Raise e -> e = LexeryError \/ e = NotImplementedError.
Proof.
  assert (L : forall s acc e, lex_go acc s = Raise e -> e = LexeryError).
  { clear. intros s. induction s as [|c|c d s IH1 IH2] using str_ind2; intros acc e H.
    - discriminate.
    - simpl in H. destruct (N.eqb c pct); congruence.
    - rewrite lex_go_cons2 in H. destruct (N.eqb c pct); [|eauto].
      destruct (_ || _); [|congruence]. destruct (lex_go [] s) eqn:E; [discriminate|].
      simpl in H. apply (IH1 [] e). congruence. }
  assert (LL : forall ls e, lex_lines ls = Raise e -> e = LexeryError).
  { intros ls. induction ls as [|l ls IH]; simpl; intros e' H; [discriminate|].
    destruct (lex_line l) as [t|e1] eqn:E1.
    - simpl in H. destruct (lex_lines ls) as [ts|e2]; [discriminate|]. simpl in H.
      apply IH. congruence.
    - simpl in H. apply (L l [] e'). unfold lex_line in E1. congruence. }
  unfold tokenize. destruct (lex_lines (splitlines s)) as [tl|e'] eqn:E; simpl.
  - destruct (forallb _ _); intros [= <-]. auto.
  - intros [= <-]. left. eauto.
Qed.

(** ** Date and time formats *)

Lemma flush_nil_iff acc : flush acc = [] <-> acc = [].
Proof. destruct acc; split; intros H; congruence || discriminate || reflexivity. Qed.

Lemma lex_nonempty l t : lex_line l = Ok t -> (t = [] <-> l = []).
Proof.
  intros H. pose proof (lex_go_content l [] t H) as C. simpl in C.
  pose proof (lex_go_ok l [] t (fun x => x) H) as K.
  split; intros ->.
  - rewrite <- C. reflexivity.
  - destruct t as [|x t]; [reflexivity|]. inversion K as [|? ? K1 K2]; subst.
    simpl in C. apply app_eq_nil in C as [C _].
    destruct x as [c|c]; simpl in *; subst.
    + destruct K1 as [d [K1 _]]. discriminate.
    + destruct K1. congruence.
Qed.

Lemma lines_go_blank s : forall acc,
  Forall (fun p => fst p = []) (lines_go acc s) <->
  acc = [] /\ (forall c, In c s -> is_linebreak c = true).
Proof.
  induction s as [|c|c d s IH1 IH2] using str_ind2; intros acc.
  - simpl. destruct acc as [|x acc].
    + split; [intros _; split; [reflexivity|intros ? []]|constructor].
    + split; [|intros [H _]; discriminate].
      intros H. inversion H as [|? ? H1 _]. simpl in H1. destruct (rev acc); discriminate.
  - assert (B : forall t, is_linebreak c = true ->
      Forall (fun p : str * str => fst p = []) [(rev acc, t)] <->
      acc = [] /\ (forall c', In c' [c] -> is_linebreak c' = true)).
    { intros t Hc. split.
      - intros H. inversion H as [|? ? H1 _]. simpl in H1. split.
        + destruct acc; [reflexivity|]. simpl in H1. destruct (rev acc); discriminate.
        + intros ? [<-|[]]. exact Hc.
      - intros [-> _]. repeat constructor. }
    cbn -[is_linebreak]. destruct (N.eqb c 13) eqn:E; [|destruct (is_linebreak c) eqn:Bc].
    + apply N.eqb_eq in E. subst. apply B. reflexivity.
    + apply B, eq_refl.
    + split.
      * intros H. inversion H as [|? ? H1 _]. simpl in H1. destruct (rev acc); discriminate.
      * intros [_ H]. rewrite (H c) in Bc by (left; reflexivity). discriminate.
  - assert (E0 : lines_go acc (c :: d :: s) =
      if N.eqb c 13 then
        (if N.eqb d 10 then (rev acc, [13; 10]%N) :: lines_go [] s
         else (rev acc, [c]) :: lines_go [] (d :: s))
      else if is_linebreak c then (rev acc, [c]) :: lines_go [] (d :: s)
      else lines_go (c :: acc) (d :: s)) by reflexivity.
    rewrite E0. clear E0.
    assert (A : forall (acc : list N), rev acc = [] -> acc = []).
    { clear. intros [|x a] H; [reflexivity|]. simpl in H. destruct (rev a); discriminate. }
    assert (B : forall t, is_linebreak c = true ->
      Forall (fun p : str * str => fst p = []) ((rev acc, t) :: lines_go [] (d :: s)) <->
      acc = [] /\ (forall c', In c' (c :: d :: s) -> is_linebreak c' = true)).
    { intros t Hc. split.
      - intros H. inversion H as [|? ? H1 H2]; subst. simpl in H1.
        apply (IH2 []) in H2 as [_ H2]. split; [apply A, H1|].
        intros x [<-|Hx]; [exact Hc|apply H2, Hx].
      - intros [-> H]. constructor; [reflexivity|]. apply IH2. split; [reflexivity|].
        intros x Hx. apply H. right. exact Hx. }
    destruct (N.eqb c 13) eqn:E; [|destruct (is_linebreak c) eqn:Bc].
    + apply N.eqb_eq in E. subst c. destruct (N.eqb d 10) eqn:Ed.
      * apply N.eqb_eq in Ed. subst d. split.
        -- intros H. inversion H as [|? ? H1 H2]; subst. simpl in H1.
           apply (IH1 []) in H2 as [_ H2]. split; [apply A, H1|].
           intros x [<-|[<-|Hx]]; [reflexivity|reflexivity|apply H2, Hx].
        -- intros [-> H]. constructor; [reflexivity|]. apply IH1. split; [reflexivity|].
           intros x Hx. apply H. right. right. exact Hx.
      * apply B. reflexivity.
    + apply B, eq_refl.
    + rewrite IH2. split; [intros [H _]; discriminate|].
      intros [_ H]. rewrite (H c) in Bc by (left; reflexivity). discriminate.
Qed.

Lemma sum_zero (tl : list (list token)) :
  (fold_right (fun l n => length l + n) 0 tl =? 0) = true <-> Forall (fun l => l = []) tl.
Proof.
  rewrite Nat.eqb_eq. induction tl as [|l tl IH]; simpl.
  - split; constructor.
  - split.
    + intros H. constructor; [apply length_zero_iff_nil; lia|]. apply IH. lia.
    + intros H. inversion H; subst. simpl. apply IH. assumption.
Qed.

Lemma lex_lines_blank ls : forall tl, lex_lines ls = Ok tl ->
  (Forall (fun l => l = []) tl <-> Forall (fun l : str => l = []) ls).
Proof.
  induction ls as [|l ls IH]; simpl; intros tl H.
  - injection H as <-. split; constructor.
  - destruct (lex_line l) as [t|] eqn:E1; [|discriminate].
    destruct (lex_lines ls) as [ts|] eqn:E2; [|discriminate].
    injection H as <-. apply lex_nonempty in E1. specialize (IH _ eq_refl).
    split; intros H; inversion H; subst; constructor; tauto.
Qed.

Lemma validate_tokens_spec letters s : letters_ok letters -> letters_no_break letters ->
  (forall c, In c letters -> In c all_letters) ->
  (match tokenize s with Ok t => validate_tokens (dirs letters) t | Raise _ => false end = true <->
   format_over letters s /\ not_blank s).
Proof.
  intros HL HN Hsub.
  assert (Hmono : format_over letters s -> format_over all_letters s).
  { intros H. induction H; [apply fo_nil|apply fo_text|apply fo_dir]; auto. }
  assert (Hblank : forall tl, lex_lines (splitlines s) = Ok tl ->
            (Forall (fun l => l = []) tl <-> ~ not_blank s)).
  { intros tl H. rewrite (lex_lines_blank _ _ H). unfold splitlines, lines_ends.
    rewrite Forall_map, lines_go_blank. split.
    - intros [_ A] [c [HI Hc]]. rewrite A in Hc by exact HI. discriminate.
    - intros A. split; [reflexivity|]. intros c HI.
      destruct (is_linebreak c) eqn:E; [reflexivity|]. exfalso. apply A. exists c. auto. }
  split.
  - destruct (tokenize s) as [tl|] eqn:E; [|discriminate].
    apply tokenize_inv in E as [E1 E2]. unfold validate_tokens.
    destruct (_ =? 0) eqn:E0; [discriminate|]. intros Hf. split.
    + apply (splitlines_format _ _ HN), (lex_lines_within _ _ HL). eauto.
    + assert (Hnb : ~ ~ not_blank s).
      { intros Hb. apply (Hblank _ E1), sum_zero in Hb. congruence. }
      (* decidable *)
      destruct (existsb (fun c => negb (is_linebreak c)) s) eqn:Ex.
      * apply existsb_exists in Ex as [c [HI Hc]]. exists c. split; [exact HI|].
        apply negb_true_iff, Hc.
      * exfalso. apply Hnb. intros [c [HI Hc]].
        assert (existsb (fun c => negb (is_linebreak c)) s = true); [|congruence].
        apply existsb_exists. exists c. rewrite Hc. auto.
  - intros [Hf Hb].
    pose proof (Hmono Hf) as Ha. apply tokenize_accepts in Ha as [tl E]. rewrite E.
    apply tokenize_inv in E as [E1 E2].
    apply (splitlines_format _ _ HN), (lex_lines_within _ _ HL) in Hf as [tl' [E' F]].
    rewrite E1 in E'. injection E' as <-. unfold validate_tokens. rewrite F.
    destruct (_ =? 0) eqn:E0; [|reflexivity].
    apply sum_zero, (Hblank _ E1) in E0. contradiction.
Qed.

Lemma sub_dec (a b : str) : forallb (fun c => existsb (N.eqb c) b) a = true ->
  forall c, In c a -> In c b.
Proof.
  rewrite forallb_forall. intros H c HI. apply H, existsb_exists in HI as [x [Hx E]].
  apply N.eqb_eq in E. subst. exact Hx.
Qed.

Lemma date_format_spec s : date_format_valid s = true <-> format_over date_letters s /\ not_blank s.
Proof.
  unfold date_format_valid, validate_date_tokens. rewrite DATE_dirs.
  apply validate_tokens_spec; [apply date_ok|apply date_nb|apply sub_dec; reflexivity].
Qed.
Lemma time_format_spec s : time_format_valid s = true <-> format_over time_letters s /\ not_blank s.
Proof.
  unfold time_format_valid, validate_time_tokens. rewrite TIME_dirs.
  apply validate_tokens_spec; [apply time_ok|apply time_nb|apply sub_dec; reflexivity].
Qed.
Lemma datetime_format_spec s : datetime_format_valid s = true <-> format_over all_letters s.
Proof.
  rewrite <- tokenize_accepts. unfold datetime_format_valid.
  destruct (tokenize s) as [tl|e]; simpl; split; intros H; try discriminate; eauto.
  destruct H as [tl H]. discriminate.
Qed.
