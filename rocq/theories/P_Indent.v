(** Proofs about re-indention and stable sorting (C43, C45). *)
From Verif Require Import Base M_Text S_Text.
From Coq Require Import String Ascii List Arith NArith ZArith Bool Lia Permutation.
Import ListNotations.
Open Scope list_scope.

(** ** The text without leading blanks, character by character *)

Fixpoint uni (start : bool) (s : str) : str :=
  match s with
  | [] => []
  | c :: s' => if start && is_blank_char c then uni true s' else c :: uni (is_linebreak c) s'
  end.

Lemma blank_not_break c : is_blank_char c = true -> is_linebreak c = false.
Proof.
  unfold is_blank_char. intros H. apply orb_true_iff in H as [H|H]; apply N.eqb_eq in H; subst; reflexivity.
Qed.

Lemma uni_blanks b s : Forall (fun c => is_blank_char c = true) b -> uni true (b ++ s) = uni true s.
Proof.
  induction b as [|c b IH]; intros H; [reflexivity|]. inversion H as [|? ? Hc Hb]; subst.
  cbn [app uni]. rewrite Hc. cbn [andb]. apply IH. exact Hb.
Qed.

(** The state after a text. *)
Definition ends_break (s : str) : Prop := exists a c, s = a ++ [c] /\ is_linebreak c = true.

Lemma uni_ends s : ends_break s -> forall start r, uni start (s ++ r) = uni start s ++ uni true r.
Proof.
  intros (a & c & -> & Hc). induction a as [|d a IH]; intros start r.
  - cbn [app uni]. destruct (is_blank_char c) eqn:E; [apply blank_not_break in E; congruence|].
    rewrite andb_false_r, Hc. reflexivity.
  - cbn [app uni]. destruct (start && is_blank_char d); [apply IH|]. cbn [app]. f_equal. apply IH.
Qed.

(** All but the last end with a line break. *)
Inductive chunks : list str -> Prop :=
| ch_nil : chunks []
| ch_last s : chunks [s]
| ch_cons s l : ends_break s -> chunks l -> chunks (s :: l).

Lemma uni_chunks l : chunks l -> uni true (concat l) = concat (map (uni true) l).
Proof.
  induction 1 as [|s|s l Hs _ IH]; [reflexivity| |].
  - cbn [map concat]. rewrite !app_nil_r. reflexivity.
  - cbn [map concat]. rewrite uni_ends by exact Hs. rewrite IH. reflexivity.
Qed.

Lemma chunks_map f l : (forall s, In s l -> ends_break s -> ends_break (f s)) -> chunks l -> chunks (map f l).
Proof.
  intros Hf H. induction H as [|s|s l Hs _ IH]; [constructor|constructor|].
  cbn [map]. constructor; [apply Hf; [left; reflexivity|exact Hs]|].
  apply IH. intros x Hx. apply Hf. right. exact Hx.
Qed.

Lemma lines_chunks s : forall acc, chunks (map (fun p => fst p ++ snd p) (lines_go acc s)).
Proof.
  assert (B : forall (a : str) c, is_linebreak c = true -> ends_break (a ++ [c])) by (intros a c H; exists a, c; auto).
  pattern s. apply str_ind2; clear s.
  - intros [|c acc]; cbn [lines_go map]; constructor.
  - intros c acc. cbn [lines_go]. destruct (N.eqb_spec c 13) as [->|]; [|destruct (is_linebreak c) eqn:E].
    + cbn [map lines_go]. constructor.
    + cbn [map lines_go]. constructor.
    + cbn [map]. constructor.
  - intros c d s IH1 IH2 acc.
    change (lines_go acc (c :: d :: s)) with
      (if N.eqb c 13 then
        (if N.eqb d 10 then (rev acc, [13; 10]%N) :: lines_go [] s
         else (rev acc, [c]) :: lines_go [] (d :: s))
      else if is_linebreak c then (rev acc, [c]) :: lines_go [] (d :: s)
      else lines_go (c :: acc) (d :: s)).
    destruct (N.eqb_spec c 13) as [->|].
    + destruct (N.eqb d 10); cbn [map fst snd]; constructor; auto.
      exists (rev acc ++ [13%N]), 10%N. rewrite <- app_assoc. split; reflexivity.
    + destruct (is_linebreak c) eqn:E; [|apply IH2]. cbn [map fst snd]. constructor; auto.
Qed.

Lemma splitlines_chunks s : chunks (splitlines_keep s).
Proof. apply lines_chunks. Qed.

Lemma nlines_chunks s : forall acc, chunks (nlines_go acc s).
Proof.
  induction s as [|c s IH]; intros acc; cbn [nlines_go].
  - destruct acc; constructor.
  - destruct (N.eqb_spec c 10) as [->|]; [|apply IH]. constructor; [|apply IH].
    exists (rev acc), 10%N. split; reflexivity.
Qed.

Lemma nlines_concat s : forall acc, concat (nlines_go acc s) = rev acc ++ s.
Proof.
  induction s as [|c s IH]; intros acc; cbn [nlines_go].
  - destruct acc as [|x acc]; [reflexivity|]. cbn [concat]. rewrite !app_nil_r. reflexivity.
  - destruct (N.eqb c 10); [|rewrite IH; cbn [rev]; rewrite <- app_assoc; reflexivity].
    cbn [concat]. rewrite IH. cbn [rev app]. rewrite <- app_assoc. reflexivity.
Qed.

(** [unindented] is [uni true]. *)
Lemma uni_line l e : (forall c, In c l -> is_linebreak c = false) ->
  (forall c, In c e -> is_linebreak c = true) ->
  uni true (l ++ e) = skip (fun c => N.eqb c 32 || N.eqb c 9) (l ++ e).
Proof.
  intros Hl He. assert (E0 : forall b, uni b e = e).
  { induction e as [|c e IH]; [reflexivity|]. intros b. cbn [uni].
    assert (Hc : is_linebreak c = true) by (apply He; left; reflexivity).
    destruct (is_blank_char c) eqn:E; [apply blank_not_break in E; congruence|].
    rewrite andb_false_r, IH; [reflexivity|]. intros d Hd. apply He. right. exact Hd. }
  induction l as [|c l IH].
  - cbn [app]. rewrite E0. destruct e as [|c e]; [reflexivity|]. cbn [skip].
    assert (Hc : is_linebreak c = true) by (apply He; left; reflexivity).
    destruct (is_blank_char c) eqn:E; [apply blank_not_break in E; congruence|]. unfold is_blank_char in E. rewrite E. reflexivity.
  - cbn [app uni skip andb]. unfold is_blank_char. destruct (N.eqb c 32 || N.eqb c 9).
    + apply IH. intros d Hd. apply Hl. right. exact Hd.
    + f_equal. rewrite (Hl c (or_introl eq_refl)).
      assert (Hl' : forall d, In d l -> is_linebreak d = false) by (intros d Hd; apply Hl; right; exact Hd).
      clear -Hl' E0. induction l as [|d l IH]; [apply E0|]. cbn [app uni andb].
      rewrite (Hl' d (or_introl eq_refl)), IH; [reflexivity|]. intros x Hx. apply Hl'. right. exact Hx.
Qed.

Lemma unindented_uni s : unindented s = uni true s.
Proof.
  unfold unindented. rewrite <- (splitlines_keep_concat s) at 2.
  rewrite uni_chunks by apply splitlines_chunks. f_equal. apply map_ext_in. intros x Hx.
  unfold splitlines_keep, lines_ends in Hx. apply in_map_iff in Hx as ([l t] & <- & H). cbn [fst snd].
  symmetry. apply uni_line.
  - eapply lines_go_no_break; [|exact H]. intros ? [].
  - intros c Hc. apply lines_go_term in H. clear -H Hc.
    repeat match goal with H : _ \/ _ |- _ => destruct H | H : exists _, _ |- _ => destruct H | H : _ /\ _ |- _ => destruct H end;
      subst; simpl in Hc; intuition (subst; auto).
Qed.

(** ** The lines of the source *)

Definition nline (l : str) : Prop := forall a b, l = a ++ 10%N :: b -> b = [].

Lemma nlines_nline s : forall acc, ~ In 10%N acc -> forall l, In l (nlines_go acc s) -> nline l.
Proof.
  induction s as [|c s IH]; intros acc Ha l Hl; cbn [nlines_go] in Hl.
  - destruct acc as [|x acc]; [destruct Hl|]. destruct Hl as [<-|[]].
    intros a b E. exfalso. apply Ha. apply in_rev. rewrite E. apply in_app_iff. right. left. reflexivity.
  - destruct (N.eqb_spec c 10) as [->|].
    + destruct Hl as [<-|Hl]; [|eapply IH; [|exact Hl]; intros []].
      intros a b E. cbn [rev] in E. destruct b as [|y b] using rev_ind; [reflexivity|].
      rewrite app_comm_cons, app_assoc in E. apply app_inj_tail in E as [E _]. exfalso.
      apply Ha. apply in_rev. rewrite E. apply in_app_iff. right. left. reflexivity.
    + eapply IH; [|exact Hl]. intros [E|I]; [congruence|contradiction].
Qed.

Lemma nlines_lf s : forall acc, ~ In 10%N acc -> lf_lines (rev acc ++ s) (nlines_go acc s).
Proof.
  induction s as [|c s IH]; intros acc Ha; cbn [nlines_go].
  - rewrite app_nil_r. destruct acc as [|x acc]; [constructor|]. constructor.
    + cbn [rev]. destruct (rev acc); discriminate.
    + rewrite <- in_rev. exact Ha.
  - destruct (N.eqb_spec c 10) as [->|].
    + cbn [rev]. constructor; [rewrite <- in_rev; exact Ha|]. apply (IH []). intros [].
    + specialize (IH (c :: acc)). cbn [rev] in IH. rewrite <- app_assoc in IH. apply IH.
      intros [E|I]; [congruence|contradiction].
Qed.

Lemma take_drop {A} (p : A -> bool) l : takewhile p l ++ dropwhile p l = l.
Proof. induction l as [|x l IH]; [reflexivity|]. cbn. destruct (p x); [cbn; rewrite IH|]; reflexivity. Qed.

Lemma takewhile_all {A} (p : A -> bool) l : Forall (fun x => p x = true) (takewhile p l).
Proof. induction l as [|x l IH]; [constructor|]. cbn. destruct (p x) eqn:E; constructor; assumption. Qed.

Lemma dropwhile_hd {A} (p : A -> bool) l x r : dropwhile p l = x :: r -> p x = false.
Proof.
  induction l as [|y l IH]; cbn; [discriminate|]. destruct (p y) eqn:E; [exact IH|]. intros [= <- _]. exact E.
Qed.

Lemma indent_char_iff c : is_blank_char c = true <-> indent_char c.
Proof. unfold is_blank_char, indent_char. rewrite orb_true_iff, !N.eqb_eq. tauto. Qed.

Lemma indent_chars b : Forall (fun c => is_blank_char c = true) b <-> Forall indent_char b.
Proof. rewrite !Forall_forall. split; intros H x Hx; apply indent_char_iff; auto. Qed.

Lemma dropwhile_blanks b s : Forall (fun c => is_blank_char c = true) b ->
  dropwhile is_blank_char (b ++ s) = dropwhile is_blank_char s.
Proof. induction 1 as [|c b Hc _ IH]; [reflexivity|]. cbn [app dropwhile]. rewrite Hc. exact IH. Qed.

Lemma takewhile_blanks b s : Forall (fun c => is_blank_char c = true) b ->
  takewhile is_blank_char (b ++ s) = b ++ takewhile is_blank_char s.
Proof. induction 1 as [|c b Hc _ IH]; [reflexivity|]. cbn [app takewhile]. rewrite Hc, IH. reflexivity. Qed.

(** The two kinds of lines. *)
Lemma line_cases l : nline l ->
  (exists b, Forall indent_char b /\ (l = b /\ empty_blank l = [] \/ l = b ++ [10%N] /\ empty_blank l = [10%N]) /\
     indent_of l = None /\ indent_of (empty_blank l) = None) \/
  (exists b c r, Forall indent_char b /\ is_blank_char c = false /\ c <> 10%N /\ l = b ++ c :: r /\
     empty_blank l = l /\ indent_of l = Some b).
Proof.
  intros Hn. pose proof (take_drop is_blank_char l) as T. pose proof (takewhile_all is_blank_char l) as B.
  unfold empty_blank, indent_of. destruct (dropwhile is_blank_char l) as [|c r] eqn:D.
  - left. exists (takewhile is_blank_char l). rewrite app_nil_r in T. split; [apply indent_chars; exact B|].
    rewrite T. auto.
  - destruct (N.eqb_spec c 10) as [->|Hc].
    + left. exists (takewhile is_blank_char l). split; [apply indent_chars; exact B|].
      assert (r = []) by (eapply Hn; symmetry; exact T). subst r. rewrite T. auto.
    + right. exists (takewhile is_blank_char l), c, r. split; [apply indent_chars; exact B|].
      split; [eapply dropwhile_hd; exact D|]. auto.
Qed.

Lemma blank_line_iff l : nline l -> (blank_line l <-> indent_of l = None).
Proof.
  intros Hn. destruct (line_cases l Hn) as [(b & Hb & H & -> & _)|(b & c & r & Hb & Hc & H10 & E & _ & ->)].
  - split; [reflexivity|]. intros _. exists b. split; [exact Hb|]. destruct H as [[H _]|[H _]]; auto.
  - split; [|discriminate]. intros (b' & Hb' & H). exfalso. rewrite E in H.
    assert (I : In c b' \/ c = 10%N).
    { assert (J : In c (b ++ c :: r)) by (apply in_app_iff; right; left; reflexivity).
      destruct H as [H|H]; rewrite H in J; [left; exact J|]. apply in_app_iff in J as [J|[J|[]]]; auto. }
    destruct I as [I|I]; [|congruence]. rewrite Forall_forall in Hb'. apply Hb' in I.
    apply indent_char_iff in I. congruence.
Qed.

(** ** The margin *)

Definition prefix (a b : str) : Prop := exists r, b = a ++ r.

Lemma prefix_starts a b : starts_with a b = true <-> prefix a b.
Proof. apply starts_with_app. Qed.

Lemma common_prefix_glb a : forall b, prefix (common_prefix a b) a /\ prefix (common_prefix a b) b /\
  forall c, prefix c a -> prefix c b -> prefix c (common_prefix a b).
Proof.
  induction a as [|x a IH]; intros b; cbn [common_prefix].
  - repeat split; try (eexists; reflexivity). auto.
  - destruct b as [|y b]; [repeat split; try (eexists; reflexivity); auto|].
    destruct (N.eqb_spec x y) as [->|Hxy].
    + destruct (IH b) as ((r1 & E1) & (r2 & E2) & G). repeat split.
      * exists r1. rewrite E1 at 1. reflexivity.
      * exists r2. rewrite E2 at 1. reflexivity.
      * intros c [r3 E3] [r4 E4]. destruct c as [|z c]; [eexists; reflexivity|].
        cbn [app] in E3, E4. injection E3 as -> E3. injection E4 as E4.
        destruct (G c) as [r5 E5]; [exists r3; exact E3|exists r4; exact E4|]. exists r5. rewrite E5. reflexivity.
    + repeat split; try (eexists; reflexivity). intros c [r3 E3] [r4 E4].
      destruct c as [|z c]; [eexists; reflexivity|]. cbn [app] in E3, E4. congruence.
Qed.

Lemma prefix_trans a b c : prefix a b -> prefix b c -> prefix a c.
Proof. intros [r ->] [s ->]. exists (r ++ s). rewrite app_assoc. reflexivity. Qed.

Lemma margin_step_glb m w : exists p, margin_step (Some m) w = Some p /\ prefix p m /\ prefix p w /\
  forall c, prefix c m -> prefix c w -> prefix c p.
Proof.
  unfold margin_step. destruct (starts_with m w) eqn:E1.
  - apply prefix_starts in E1. exists m. repeat split; auto. exists []. rewrite app_nil_r. reflexivity.
  - destruct (starts_with w m) eqn:E2.
    + apply prefix_starts in E2. exists w. repeat split; auto. exists []. rewrite app_nil_r. reflexivity.
    + destruct (common_prefix_glb m w) as (A & B & C). exists (common_prefix m w). auto.
Qed.

Lemma margin_fold ws : forall m, exists p, fold_left margin_step ws (Some m) = Some p /\ prefix p m /\
  (forall w, In w ws -> prefix p w) /\
  forall c, prefix c m -> (forall w, In w ws -> prefix c w) -> prefix c p.
Proof.
  induction ws as [|w ws IH]; intros m.
  - exists m. cbn. repeat split; auto. exists []. rewrite app_nil_r. reflexivity. intros w [].
  - cbn [fold_left]. destruct (margin_step_glb m w) as (p & -> & A & B & C).
    destruct (IH p) as (q & -> & D & F & G). exists q. repeat split; auto.
    + eapply prefix_trans; eauto.
    + intros x [<-|Hx]; [eapply prefix_trans; eauto|auto].
    + intros c H1 H2. apply G; [apply C; [exact H1|apply H2; left; reflexivity]|]. intros x Hx. apply H2. right. exact Hx.
Qed.

Lemma filter_some_in {A} (l : list (option A)) a : In a (filter_some l) <-> In (Some a) l.
Proof.
  induction l as [|[x|] l IH]; cbn [filter_some In]; [tauto| |].
  - rewrite IH. split; intros [H|H]; auto; left; congruence.
  - rewrite IH. split; [auto|]. intros [H|H]; [discriminate|exact H].
Qed.

Lemma margin_is ls : (forall l, In l ls -> nline l) -> is_margin (margin_of (map empty_blank ls)) ls.
Proof.
  intros Hn. unfold margin_of.
  set (ws := filter_some (map indent_of (map empty_blank ls))).
  assert (W1 : forall w, In w ws -> exists l c r, In l ls /\ Forall indent_char w /\ is_blank_char c = false /\
             l = w ++ c :: r /\ indent_of l = Some w).
  { intros w Hw. apply filter_some_in in Hw. rewrite map_map in Hw. apply in_map_iff in Hw as (l & E & Hl).
    destruct (line_cases l (Hn l Hl)) as [(b & _ & _ & _ & H)|(b & c & r & Hb & Hc & _ & El & Ee & Ei)].
    - congruence.
    - rewrite Ee, Ei in E. injection E as ->. exists l, c, r. auto. }
  assert (W2 : forall l, In l ls -> blank_line l \/ exists w, In w ws /\ exists r, l = w ++ r).
  { intros l Hl. pose proof (blank_line_iff l (Hn l Hl)) as Bl.
    destruct (line_cases l (Hn l Hl)) as [(b & _ & _ & H & _)|(b & c & r & Hb & Hc & _ & El & Ee & Ei)].
    - left. apply Bl. exact H.
    - right. exists b. split; [|eauto]. apply filter_some_in. rewrite map_map. apply in_map_iff.
      exists l. rewrite Ee. auto. }
  assert (W3 : forall m' w c r, Forall indent_char m' -> is_blank_char c = false -> (exists x, w ++ c :: r = m' ++ x) -> prefix m' w).
  { intros m' w c r Hm Hc. revert w Hm. induction m' as [|a m' IH]; intros w Hm [x E]; [eexists; reflexivity|].
    inversion Hm as [|? ? Ha Hm']; subst. apply indent_char_iff in Ha.
    destruct w as [|b w]; cbn [app] in E.
    - injection E as -> _. congruence.
    - injection E as -> E. destruct (IH w Hm' (ex_intro _ x E)) as [y ->]. exists y. reflexivity. }
  assert (NB : forall l, In l ls -> ~ blank_line l -> exists w c r, In w ws /\ is_blank_char c = false /\ l = w ++ c :: r).
  { intros l Hl Hb. destruct (W2 l Hl) as [H|(w & Hw & r & El)]; [contradiction|].
    destruct (line_cases l (Hn l Hl)) as [(b & _ & _ & H & _)|(b & c & r' & Hb' & Hc & _ & El' & Ee & Ei)].
    - exfalso. apply Hb. apply blank_line_iff; auto.
    - exists b, c, r'. split; [|auto]. apply filter_some_in. rewrite map_map. apply in_map_iff.
      exists l. rewrite Ee. auto. }
  clearbody ws. destruct ws as [|w ws].
  - cbn [fold_left]. split; [constructor|]. split; [|split].
    + intros l Hl. right. exists l. reflexivity.
    + auto.
    + intros m' Hm H (l & Hl & Hb). destruct (W2 l Hl) as [H'|(w & [] & _)]. contradiction.
  - cbn [fold_left margin_step]. destruct (margin_fold ws w) as (p & -> & A & B & C).
    assert (P : forall x, In x (w :: ws) -> prefix p x) by (intros x [<-|Hx]; auto).
    split; [|split; [|split]].
    + destruct (W1 w (or_introl eq_refl)) as (l & c & r & _ & Hw & _). destruct A as [x ->].
      apply Forall_app in Hw. tauto.
    + intros l Hl. destruct (W2 l Hl) as [H|(x & Hx & r & ->)]; [left; exact H|]. right.
      destruct (P x Hx) as [y ->]. exists (y ++ r). rewrite app_assoc. reflexivity.
    + intros H. destruct (W1 w (or_introl eq_refl)) as (l & c & r & Hl & _ & _ & _ & Ei).
      apply H in Hl as Hb. apply blank_line_iff in Hb; [congruence|auto].
    + intros m' Hm H _. destruct (C m') as [y Ey].
      * destruct (W1 w (or_introl eq_refl)) as (l & c & r & Hl & Hw & Hc & El & Ei).
        destruct (H l Hl) as [Hb|[x Ex]]; [apply blank_line_iff in Hb; [congruence|auto]|].
        apply (W3 m' w c r); [exact Hm|exact Hc|]. exists x. congruence.
      * intros x Hx. destruct (W1 x (or_intror Hx)) as (l & c & r & Hl & Hw & Hc & El & Ei).
        destruct (H l Hl) as [Hb|[z Ez]]; [apply blank_line_iff in Hb; [congruence|auto]|].
        apply (W3 m' x c r); [exact Hm|exact Hc|]. exists z. congruence.
      * rewrite Ey, app_length. lia.
Qed.

(** ** One line *)

Lemma groups_spec s : forall n r, groups s = (n, r) -> s = repeat 32%N (4 * n) ++ r /\
  (forall x, r <> repeat 32%N 4 ++ x).
Proof.
  assert (H : forall k s, length s <= k -> forall n r, groups s = (n, r) -> s = repeat 32%N (4 * n) ++ r /\
    (forall x, r <> repeat 32%N 4 ++ x)).
  { induction k as [|k IH]; intros t Hl n r E.
    - destruct t; [|simpl in Hl; lia]. injection E as <- <-. split; [reflexivity|discriminate].
    - destruct t as [|a [|b [|c [|d t]]]]; try (injection E as <- <-; split; [reflexivity|discriminate]).
      cbn [groups] in E. destruct (N.eqb a 32 && N.eqb b 32 && N.eqb c 32 && N.eqb d 32)%bool eqn:Q.
      + rewrite !andb_true_iff, !N.eqb_eq in Q. destruct Q as [[[-> ->] ->] ->].
        destruct (groups t) as [n' r'] eqn:G. injection E as <- <-.
        destruct (IH t) with (n := n') (r := r') as [E H]; [simpl in Hl; lia|exact G|].
        split; [|exact H]. replace (4 * S n') with (4 + 4 * n') by lia. cbn [repeat app plus]. rewrite E at 1. reflexivity.
      + injection E as <- <-. split; [reflexivity|]. intros x [= -> -> -> -> _]. discriminate. }
  intros n r. apply (H (length s)). lia.
Qed.

Lemma leading_spaces r : (forall x, r <> repeat 32%N 4 ++ x) ->
  exists k rest, r = repeat 32%N k ++ rest /\ k < 4 /\ forall y, rest <> 32%N :: y.
Proof.
  intros H.
  assert (S0 : forall s, (forall y : str, s <> 32%N :: y) \/ exists y, s = 32%N :: y).
  { intros [|c s]; [left; discriminate|]. destruct (N.eq_dec c 32) as [->|Hc]; [right; eauto|left; congruence]. }
  destruct (S0 r) as [K|[r1 ->]]; [exists 0, r; repeat split; auto; lia|].
  destruct (S0 r1) as [K|[r2 ->]]; [exists 1, r1; repeat split; auto; lia|].
  destruct (S0 r2) as [K|[r3 ->]]; [exists 2, r2; repeat split; auto; lia|].
  destruct (S0 r3) as [K|[r4 ->]]; [exists 3, r3; repeat split; auto; lia|].
  exfalso. apply (H r4). reflexivity.
Qed.

Lemma reindent_line_eq level indention line : forall n r, groups line = (n, r) ->
  reindent_line level indention line = times indention (Z.of_nat n + level) ++ r.
Proof.
  intros n r G. unfold reindent_line. rewrite G. destruct n; [|reflexivity].
  apply groups_spec in G as [-> _]. reflexivity.
Qed.

Lemma reindent_line_spec level indention line :
  reindented level indention line (reindent_line (Z.of_nat level) indention line).
Proof.
  destruct (groups line) as [n r] eqn:G. pose proof (reindent_line_eq (Z.of_nat level) indention line n r G) as E.
  apply groups_spec in G as [G H]. destruct (leading_spaces r H) as (k & rest & Er & Hk & Hr).
  exists n, k, rest. split; [rewrite G, Er, repeat_app, app_assoc; reflexivity|]. split; [exact Hk|]. split; [exact Hr|].
  rewrite E. unfold times. rewrite <- Nat2Z.inj_add, Nat2Z.id, Er. reflexivity.
Qed.

Lemma repeat_blank n : Forall (fun c => is_blank_char c = true) (repeat 32%N n).
Proof. induction n; constructor; auto. Qed.

Lemma times_blank indention n : Forall indent_char indention ->
  Forall (fun c => is_blank_char c = true) (times indention n).
Proof.
  intros H. apply indent_chars in H. unfold times. induction (Z.to_nat n) as [|k IH]; [constructor|].
  cbn [repeat concat]. apply Forall_app. auto.
Qed.

Lemma uni_reindent_line level indention line : Forall indent_char indention ->
  uni true (reindent_line level indention line) = uni true line.
Proof.
  intros H. destruct (groups line) as [n r] eqn:G. rewrite (reindent_line_eq level indention line n r G).
  apply groups_spec in G as [-> _]. rewrite !uni_blanks; [reflexivity|apply repeat_blank|apply times_blank; exact H].
Qed.

Lemma ends_break_blanks b s : Forall (fun c => is_blank_char c = true) b -> ends_break (b ++ s) -> ends_break s.
Proof.
  intros Hb (a & c & E & Hc). destruct s as [|x s] using rev_ind.
  - rewrite app_nil_r in E. subst b. apply Forall_app in Hb as [_ Hb]. inversion Hb as [|? ? H _]; subst.
    apply blank_not_break in H. congruence.
  - rewrite app_assoc in E. apply app_inj_tail in E as [_ ->]. exists s, c. auto.
Qed.

Lemma ends_break_app b s : ends_break s -> ends_break (b ++ s).
Proof. intros (a & c & -> & Hc). exists (b ++ a), c. rewrite app_assoc. auto. Qed.

Lemma ends_reindent_line level indention line : ends_break line -> ends_break (reindent_line level indention line).
Proof.
  intros H. destruct (groups line) as [n r] eqn:G. rewrite (reindent_line_eq level indention line n r G).
  apply groups_spec in G as [-> _]. apply ends_break_app. eapply ends_break_blanks; [|exact H]. apply repeat_blank.
Qed.

Lemma uni_empty_blank l : nline l -> uni true (empty_blank l) = uni true l.
Proof.
  intros Hn. destruct (line_cases l Hn) as [(b & Hb & H & _)|(b & c & r & _ & _ & _ & _ & -> & _)]; [|reflexivity].
  apply indent_chars in Hb. destruct H as [[E ->]|[E ->]]; rewrite E.
  - rewrite <- (app_nil_r b), uni_blanks by exact Hb. reflexivity.
  - rewrite uni_blanks by exact Hb. reflexivity.
Qed.

Lemma ends_empty_blank l : nline l -> ends_break l -> ends_break (empty_blank l).
Proof.
  intros Hn He. destruct (line_cases l Hn) as [(b & Hb & H & _)|(b & c & r & _ & _ & _ & _ & -> & _)]; [|exact He].
  apply indent_chars in Hb. destruct H as [[E ->]|[E ->]].
  - exfalso. subst b. rewrite <- (app_nil_r l) in He. apply ends_break_blanks in He as (a & c & E & _); [|exact Hb].
    destruct a; discriminate.
  - exists [], 10%N. split; reflexivity.
Qed.

Lemma uni_drop m l : Forall (fun c => is_blank_char c = true) m -> uni true (drop_margin m l) = uni true l.
Proof.
  intros H. unfold drop_margin. destruct (starts_with m l) eqn:E; [|reflexivity].
  apply starts_with_app in E as [r ->]. rewrite skipn_app, skipn_all, Nat.sub_diag. cbn [skipn app].
  rewrite uni_blanks by exact H. reflexivity.
Qed.

Lemma ends_drop m l : Forall (fun c => is_blank_char c = true) m -> ends_break l -> ends_break (drop_margin m l).
Proof.
  intros H He. unfold drop_margin. destruct (starts_with m l) eqn:E; [|exact He].
  apply starts_with_app in E as [r ->]. rewrite skipn_app, skipn_all, Nat.sub_diag. cbn [skipn app].
  eapply ends_break_blanks; eauto.
Qed.

Lemma nlines_ok text l : In l (nlines text) -> nline l.
Proof. apply nlines_nline. intros []. Qed.

Lemma margin_blank text : Forall (fun c => is_blank_char c = true) (margin_of (map empty_blank (nlines text))).
Proof. apply indent_chars. apply (margin_is (nlines text)). intros l. apply nlines_ok. Qed.

(** Re-indention changes only the blanks at the starts of lines. *)
Lemma reindent_unindented text level indention : Forall indent_char indention ->
  unindented (reindent text level indention) = unindented text.
Proof.
  intros H. rewrite !unindented_uni. unfold reindent.
  rewrite uni_chunks by (apply chunks_map; [intros s _; apply ends_reindent_line|apply splitlines_chunks]).
  rewrite map_map. rewrite (map_ext _ (uni true)) by (intros l; apply uni_reindent_line; exact H).
  rewrite <- uni_chunks by apply splitlines_chunks. rewrite splitlines_keep_concat.
  unfold dedent. rewrite uni_chunks.
  - rewrite !map_map. transitivity (uni true (concat (nlines_go [] text))); [|rewrite nlines_concat; reflexivity].
    rewrite (uni_chunks (nlines_go [] text)) by apply nlines_chunks. f_equal. apply map_ext_in.
    intros l Hl. rewrite uni_drop by apply margin_blank. apply uni_empty_blank. apply (nlines_ok text). exact Hl.
  - rewrite map_map. apply chunks_map; [|apply nlines_chunks].
    intros l Hl He. apply ends_drop; [apply margin_blank|]. apply ends_empty_blank; [apply (nlines_ok text); exact Hl|exact He].
Qed.

(** ** Every line *)

Lemma lines_go_app l s : forall acc, lines_go acc (l ++ 10%N :: s) = lines_go acc (l ++ [10%N]) ++ lines_go [] s.
Proof.
  pattern l. apply str_ind2; clear l.
  - intros acc. reflexivity.
  - intros c acc. cbn [app lines_go]. change (N.eqb 10 10) with true. change (N.eqb 10 13) with false.
    change (is_linebreak 10) with true. cbn iota.
    destruct (N.eqb c 13); [reflexivity|]. destruct (is_linebreak c); reflexivity.
  - intros c d l IH1 IH2 acc. cbn [app].
    assert (U : forall t, lines_go acc (c :: d :: t) =
      (if N.eqb c 13 then
        (if N.eqb d 10 then (rev acc, [13; 10]%N) :: lines_go [] t
         else (rev acc, [c]) :: lines_go [] (d :: t))
      else if is_linebreak c then (rev acc, [c]) :: lines_go [] (d :: t)
      else lines_go (c :: acc) (d :: t))) by reflexivity.
    rewrite !U. cbn [app] in IH2. destruct (N.eqb c 13); [|destruct (is_linebreak c)].
    + destruct (N.eqb d 10); [rewrite IH1|rewrite IH2]; reflexivity.
    + rewrite IH2. reflexivity.
    + apply IH2.
Qed.

Lemma splitlines_app l s : splitlines_keep (l ++ 10%N :: s) = splitlines_keep (l ++ [10%N]) ++ splitlines_keep s.
Proof. unfold splitlines_keep, lines_ends. rewrite lines_go_app, map_app. reflexivity. Qed.

(** All but the last end with a line feed. *)
Inductive lf_chunks : list str -> Prop :=
| lc_nil : lf_chunks []
| lc_last s : lf_chunks [s]
| lc_cons s l : lf_chunks l -> lf_chunks ((s ++ [10%N]) :: l).

Lemma splitlines_lf l : lf_chunks l -> splitlines_keep (concat l) = concat (map splitlines_keep l).
Proof.
  induction 1 as [|s|s l _ IH]; [reflexivity|cbn [map concat]; rewrite !app_nil_r; reflexivity|].
  cbn [map concat]. rewrite <- IH, <- app_assoc. cbn [app]. apply splitlines_app.
Qed.

Lemma drop_margin_lf m s : Forall (fun c => is_blank_char c = true) m ->
  exists s', drop_margin m (s ++ [10%N]) = s' ++ [10%N].
Proof.
  intros H. unfold drop_margin. destruct (starts_with m (s ++ [10%N])) eqn:E; [|eauto].
  apply starts_with_app in E as [r E]. rewrite E, skipn_app, skipn_all, Nat.sub_diag. cbn [skipn app].
  destruct r as [|x r] using rev_ind.
  - rewrite app_nil_r in E. subst m. apply Forall_app in H as [_ H]. inversion H as [|? ? Hc _]; subst. discriminate.
  - rewrite app_assoc in E. apply app_inj_tail in E as [_ <-]. eauto.
Qed.

Lemma empty_blank_lf s : nline (s ++ [10%N]) -> exists s', empty_blank (s ++ [10%N]) = s' ++ [10%N].
Proof.
  intros Hn. destruct (line_cases _ Hn) as [(b & Hb & H & _)|(b & c & r & _ & _ & _ & _ & -> & _)]; [|eauto].
  destruct H as [[E _]|[_ ->]]; [|exists []; reflexivity].
  subst b. apply Forall_app in Hb as [_ Hb]. inversion Hb as [|? ? Hc _]; subst.
  apply indent_char_iff in Hc. discriminate.
Qed.

Lemma dedent_lf text : lf_chunks (map (drop_margin (margin_of (map empty_blank (nlines text)))) (map empty_blank (nlines text))).
Proof.
  assert (Hm := margin_blank text). revert Hm. generalize (margin_of (map empty_blank (nlines text))) as m. intros m Hm.
  assert (Hn := nlines_ok text). unfold nlines in *. revert Hn. generalize (@nil N) as acc.
  induction text as [|c s IH]; intros acc Hn; cbn [nlines_go] in *.
  - destruct acc; constructor.
  - destruct (N.eqb_spec c 10) as [->|]; [|apply IH; exact Hn]. cbn [map].
    assert (N1 := Hn _ (or_introl eq_refl)). cbn [rev] in *.
    destruct (empty_blank_lf _ N1) as [s1 ->]. destruct (drop_margin_lf m s1 Hm) as [s2 ->].
    constructor. apply IH. intros l Hl. apply Hn. right. exact Hl.
Qed.

Lemma Forall2_map_r {A B} (R : A -> B -> Prop) (f : A -> B) l : (forall x, In x l -> R x (f x)) -> Forall2 R l (map f l).
Proof.
  induction l as [|x l IH]; intros H; cbn [map]; constructor; [apply H; left; reflexivity|].
  apply IH. intros y Hy. apply H. right. exact Hy.
Qed.

Lemma concat_concat {A} (l : list (list (list A))) : concat (concat l) = concat (map (@concat A) l).
Proof. induction l as [|x l IH]; [reflexivity|]. cbn. rewrite concat_app, IH. reflexivity. Qed.

Lemma reindent_lines text level indention :
  exists ls m outs, lf_lines text ls /\ is_margin m ls /\
    Forall2 (reindented_lf_line level indention m) ls outs /\
    reindent text (Z.of_nat level) indention = concat outs.
Proof.
  set (m := margin_of (map empty_blank (nlines text))).
  exists (nlines text), m.
  exists (map (fun l => concat (map (reindent_line (Z.of_nat level) indention)
                 (splitlines_keep (drop_margin m (empty_blank l))))) (nlines text)).
  assert (Hm : is_margin m (nlines text)) by (apply margin_is; intros l; apply nlines_ok).
  split; [apply (nlines_lf text []); intros []|]. split; [exact Hm|]. split.
  - apply Forall2_map_r. intros l Hl. assert (Hn := nlines_ok text l Hl). unfold reindented_lf_line.
    pose proof (blank_line_iff l Hn) as Bl. pose proof (margin_blank text) as Mb. fold m in Mb.
    destruct (line_cases l Hn) as [(b & Hb & H & Ei & _)|(b & c & r & Hb & Hc & H10 & El & Ee & Ei)].
    + left. split; [apply Bl; exact Ei|]. destruct H as [[E ->]|[E ->]].
      * assert (ends_with [10%N] l = false) as ->.
        { destruct (ends_with [10%N] l) eqn:X; [|reflexivity]. apply ends_with_app in X as [a X]. exfalso.
          rewrite E in X. rewrite X in Hb. apply Forall_app in Hb as [_ Hb]. inversion Hb as [|? ? Hc _]; subst.
          apply indent_char_iff in Hc. discriminate. }
        unfold drop_margin. destruct m; reflexivity.
      * assert (ends_with [10%N] l = true) as -> by (apply ends_with_app; eauto).
        assert (drop_margin m [10%N] = [10%N]) as ->.
        { unfold drop_margin. destruct m as [|x m']; [reflexivity|]. cbn [starts_with].
          inversion Mb as [|? ? Hx _]; subst. destruct (N.eqb_spec x 10) as [->|]; [discriminate|reflexivity]. }
        change (splitlines_keep [10%N]) with [[10%N]]. cbn [map concat]. rewrite app_nil_r.
        rewrite (reindent_line_eq _ _ _ 0 [10%N]) by reflexivity.
        unfold times. rewrite <- Nat2Z.inj_add, Nat2Z.id. reflexivity.
    + right. assert (Nb : ~ blank_line l) by (intros C; apply Bl in C; congruence). split; [exact Nb|].
      destruct Hm as (_ & Hp & _). destruct (Hp l Hl) as [C|[r' Er]]; [contradiction|].
      exists r', (map (reindent_line (Z.of_nat level) indention) (splitlines_keep r')).
      split; [exact Er|]. split; [apply Forall2_map_r; intros x _; apply reindent_line_spec|].
      rewrite Ee. unfold drop_margin.
      assert (starts_with m l = true) as -> by (apply starts_with_app; eauto).
      rewrite Er, skipn_app, skipn_all, Nat.sub_diag. reflexivity.
  - unfold reindent, dedent. fold m. rewrite splitlines_lf by apply dedent_lf.
    rewrite concat_map, concat_concat, !map_map. reflexivity.
Qed.

(** ** Stable sorting *)

Lemma insert_false {A} (key : A -> bool) x l : key x = false -> insert_by key x l = x :: l.
Proof. intros H. destruct l; [reflexivity|]. cbn [insert_by]. rewrite H. reflexivity. Qed.

Lemma insert_true {A} (key : A -> bool) x a b : key x = true ->
  Forall (fun y => key y = false) a -> Forall (fun y => key y = true) b ->
  insert_by key x (a ++ b) = a ++ x :: b.
Proof.
  intros Hx Ha Hb. induction Ha as [|y a Hy _ IH].
  - cbn [app]. destruct Hb as [|y b Hy Hb]; [reflexivity|]. cbn [insert_by]. rewrite Hx, Hy. reflexivity.
  - cbn [app insert_by]. rewrite Hx, Hy, IH. reflexivity.
Qed.

Lemma filter_all {A} (p : A -> bool) l : Forall (fun y => p y = true) (filter p l).
Proof. apply Forall_forall. intros x Hx. apply filter_In in Hx. tauto. Qed.

Lemma sorted_by_filter {A} (key : A -> bool) l :
  sorted_by key l = filter (fun y => negb (key y)) l ++ filter key l.
Proof.
  induction l as [|x l IH]; [reflexivity|]. cbn [sorted_by filter]. rewrite IH.
  destruct (key x) eqn:K; cbn [negb].
  - apply insert_true; [exact K| |apply filter_all].
    eapply Forall_impl; [|apply filter_all]. cbn. intros y Hy. destruct (key y); [discriminate|reflexivity].
  - rewrite insert_false by exact K. reflexivity.
Qed.

Lemma filter_perm {A} (key : A -> bool) l : Permutation l (filter (fun y => negb (key y)) l ++ filter key l).
Proof.
  induction l as [|x l IH]; [constructor|]. cbn [filter]. destruct (key x); cbn [negb app].
  - apply Permutation_cons_app. exact IH.
  - constructor. exact IH.
Qed.
