(** The matcher decides the grammar. *)
From Verif Require Import Base M_Dec M_Schema M_Duration S_Duration.
From Coq Require Import String List Arith NArith ZArith Bool Lia Floats.SpecFloat.
Import ListNotations.

Lemma is_digit_iff c : is_digit c = true <-> (48 <= c <= 57)%N.
Proof. unfold is_digit. rewrite andb_true_iff, !N.leb_le. tauto. Qed.

Lemma is_digit_false c : (c < 48 \/ 57 < c)%N -> is_digit c = false.
Proof.
  intros H. destruct (is_digit c) eqn:E; [|reflexivity]. apply is_digit_iff in E. lia.
Qed.

(** What may follow a run of digits. *)
Definition stop (s : str) : Prop := forall c r, s = c :: r -> is_digit c = false.

Lemma span_digits_app ds r : digits ds -> stop r -> span_digits (ds ++ r) = (ds, r).
Proof.
  intros H Hr. induction H as [|c ds Hc _ IH]; simpl.
  - destruct r as [|c r]; [reflexivity|]. simpl. rewrite (Hr c r eq_refl). reflexivity.
  - rewrite (proj2 (is_digit_iff c) Hc), IH. reflexivity.
Qed.

Lemma span_digits_sound s a b : span_digits s = (a, b) -> s = a ++ b /\ digits a /\ stop b.
Proof.
  revert a b. induction s as [|c s IH]; simpl; intros a b E.
  - injection E as <- <-. repeat split; [constructor|]. intros ? ? H; discriminate.
  - destruct (is_digit c) eqn:D.
    + destruct (span_digits s) as [a' b']. injection E as <- <-.
      destruct (IH a' b' eq_refl) as (-> & Hd & Hs). repeat split; [|exact Hs].
      constructor; [apply is_digit_iff; exact D|exact Hd].
    + injection E as <- <-. repeat split; [constructor|]. intros c' r H. injection H as <- <-. exact D.
Qed.

Lemma int_digits_iff ds : int_digits ds = true <-> ds <> [] /\ (forall r, ds = 48%N :: r -> r = []).
Proof.
  destruct ds as [|c [|d ds]]; simpl.
  - split; [discriminate|]. intros [H _]; exfalso; apply H; reflexivity.
  - split; [|reflexivity]. intros _. split; [discriminate|]. intros r E; injection E as _ <-; reflexivity.
  - rewrite negb_true_iff, N.eqb_neq. split.
    + intros H. split; [discriminate|]. intros r E; injection E as E _; contradiction.
    + intros [_ H] ->. specialize (H _ eq_refl). discriminate.
Qed.

(** A number followed by something that is neither a digit nor a dot. *)
Definition stop_number (s : str) : Prop := forall c r, s = c :: r -> is_digit c = false /\ c <> 46%N.

Lemma match_number_complete n r : number_ok n -> stop_number r ->
  match_number (number_text n ++ r) = Some (n, r).
Proof.
  destruct n as [ds fs]. intros (Hd & Hne & Hz & Hf) Hr. unfold match_number, number_text. simpl in *.
  destruct fs as [f|].
  - destruct (Hf f eq_refl) as [Hfd Hfn]. simpl s_. rewrite <- app_assoc.
    rewrite span_digits_app; [|exact Hd|intros c' r' E; injection E as <- <-; reflexivity].
    rewrite (proj2 (int_digits_iff ds) (conj Hne Hz)). simpl.
    rewrite span_digits_app; [|exact Hfd|intros c' r' E; apply (Hr c' r' E)].
    destruct f as [|c f]; [exfalso; apply Hfn; reflexivity|reflexivity].
  - rewrite app_nil_r. rewrite span_digits_app; [|exact Hd|intros c' r' E; apply (Hr c' r' E)].
    rewrite (proj2 (int_digits_iff ds) (conj Hne Hz)). destruct r as [|c r]; [reflexivity|].
    destruct (N.eqb_spec c 46) as [->|]; [|reflexivity]. exfalso. apply (Hr 46%N r eq_refl). reflexivity.
Qed.

Lemma match_number_sound s n r : match_number s = Some (n, r) -> number_ok n /\ s = number_text n ++ r.
Proof.
  unfold match_number. destruct (span_digits s) as [ds r0] eqn:E.
  destruct (span_digits_sound s ds r0 E) as (-> & Hd & Hs).
  destruct (int_digits ds) eqn:I; [|discriminate]. apply int_digits_iff in I. destruct I as [Hne Hz].
  assert (H0 : number_ok (ds, None)) by (repeat split; simpl; auto; discriminate).
  destruct r0 as [|c r'].
  - intros H; injection H as <- <-. split; [exact H0|]. unfold number_text; simpl; rewrite ?app_nil_r; reflexivity.
  - destruct (N.eqb_spec c 46) as [->|].
    + destruct (span_digits r') as [fs r''] eqn:E'. destruct (span_digits_sound _ _ _ E') as (-> & Hfd & _).
      destruct fs as [|c0 fs]; intros H; injection H as <- <-.
      * split; [exact H0|]. unfold number_text; simpl; rewrite ?app_nil_r; reflexivity.
      * split.
        -- repeat split; simpl; auto; injection H as <-; [exact Hfd|discriminate].
        -- unfold number_text; simpl. rewrite <- app_assoc. reflexivity.
    + intros H; injection H as <- <-. split; [exact H0|]. unfold number_text; simpl; rewrite ?app_nil_r; reflexivity.
Qed.

(** Unit letters. *)
Definition letter (u : chr) : Prop := is_digit u = false /\ u <> 46%N.

Lemma match_part_some u n r : letter u -> number_ok n ->
  match_part u (number_text n ++ u :: r) = (Some n, r).
Proof.
  intros [Hu Hd] Hn. unfold match_part. rewrite match_number_complete; [|exact Hn|].
  - rewrite N.eqb_refl. reflexivity.
  - intros c r' E; injection E as <- <-. split; assumption.
Qed.

Lemma match_part_other u u' n r : letter u' -> u' <> u -> number_ok n ->
  match_part u (number_text n ++ u' :: r) = (None, number_text n ++ u' :: r).
Proof.
  intros [Hu Hd] Hne Hn. unfold match_part. rewrite match_number_complete; [|exact Hn|].
  - rewrite (proj2 (N.eqb_neq u' u) Hne). reflexivity.
  - intros c r' E; injection E as <- <-. split; assumption.
Qed.

Lemma match_part_stop u r : stop r -> match_part u r = (None, r).
Proof.
  intros H. unfold match_part, match_number.
  assert (E : span_digits r = ([], r)).
  { destruct r as [|c r]; [reflexivity|]. simpl. rewrite (H c r eq_refl). reflexivity. }
  rewrite E. reflexivity.
Qed.

(** A sequence of parts. *)
Definition ptext (u : chr) (o : option number) : str :=
  match o with Some n => number_text n ++ [u] | None => [] end.
Fixpoint chain (l : list (chr * option number)) : str :=
  match l with (u, o) :: l' => ptext u o ++ chain l' | [] => [] end.

Lemma match_part_skip u l r : Forall (fun p => letter (fst p) /\ fst p <> u /\ part_ok (snd p)) l ->
  stop r -> match_part u (chain l ++ r) = (None, chain l ++ r).
Proof.
  intros H Hr. induction H as [|[u' o] l (Hl & Hne & Ho) _ IH]; simpl.
  - apply match_part_stop. exact Hr.
  - destruct o as [n|]; simpl in *; [|exact IH].
    rewrite <- !app_assoc. simpl. apply match_part_other; [exact Hl|exact Hne|apply Ho; reflexivity].
Qed.

Lemma match_part_chain u o l r : letter u -> part_ok o ->
  Forall (fun p => letter (fst p) /\ fst p <> u /\ part_ok (snd p)) l -> stop r ->
  match_part u (chain ((u, o) :: l) ++ r) = (o, chain l ++ r).
Proof.
  intros Hu Ho Hl Hr. destruct o as [n|]; simpl.
  - rewrite <- !app_assoc. simpl. apply match_part_some; [exact Hu|apply Ho; reflexivity].
  - apply match_part_skip; assumption.
Qed.

Lemma match_part_sound u s o r : match_part u s = (o, r) -> part_ok o /\ s = ptext u o ++ r.
Proof.
  unfold match_part. destruct (match_number s) as [[n [|c r0]]|] eqn:E.
  - intros H; injection H as <- <-. split; [intros ? H; discriminate|reflexivity].
  - destruct (N.eqb_spec c u) as [->|].
    + intros H; injection H as <- <-. apply match_number_sound in E. destruct E as [Hn ->]. split.
      * intros n' E; injection E as <-; exact Hn.
      * simpl. rewrite <- app_assoc. reflexivity.
    + intros H; injection H as <- <-. split; [intros ? H; discriminate|reflexivity].
  - intros H; injection H as <- <-. split; [intros ? H; discriminate|reflexivity].
Qed.

Lemma match_sign_sound s n r : match_sign s = (n, r) ->
  exists sign, s = sign ++ r /\ (if n then sign = s_ "-" else sign = [] \/ sign = s_ "+").
Proof.
  unfold match_sign. destruct s as [|c s].
  - intros H; injection H as <- <-. exists []. split; [reflexivity|left; reflexivity].
  - destruct (N.eqb_spec c 45) as [->|].
    + intros H; injection H as <- <-. exists (s_ "-"). split; reflexivity.
    + destruct (N.eqb_spec c 43) as [->|]; intros H; injection H as <- <-.
      * exists (s_ "+"). split; [reflexivity|right; reflexivity].
      * exists []. split; [reflexivity|left; reflexivity].
Qed.

Lemma match_sign_complete (neg : bool) sign r :
  (if neg then sign = s_ "-" else sign = [] \/ sign = s_ "+") ->
  match_sign (sign ++ s_ "P" ++ r) = (neg, s_ "P" ++ r).
Proof. destruct neg; intros H; [subst|destruct H; subst]; reflexivity. Qed.

Lemma match_duration_sound at_end s g : match_duration at_end s = Some g ->
  exists s0 r, s = s0 ++ r /\ duration g s0 /\ at_end r = true.
Proof.
  unfold match_duration. destruct (match_sign s) as [neg s1] eqn:E0.
  apply match_sign_sound in E0. destruct E0 as (sign & -> & Hsign).
  destruct s1 as [|c s2]; [discriminate|]. destruct (N.eqb_spec c 80) as [->|]; [|discriminate].
  destruct (match_part 89 s2) as [y s3] eqn:E1. apply match_part_sound in E1. destruct E1 as [Hy ->].
  destruct (match_part 77 s3) as [mo s4] eqn:E2. apply match_part_sound in E2. destruct E2 as [Hmo ->].
  destruct (match_part 87 s4) as [w s5] eqn:E3. apply match_part_sound in E3. destruct E3 as [Hw ->].
  destruct (match_part 68 s5) as [d s6] eqn:E4. apply match_part_sound in E4. destruct E4 as [Hd ->].
  assert (Hnone : part_ok None) by (intros ? H; discriminate).
  assert (Hshort : at_end s6 = true ->
     exists s0 r, sign ++ 80%N :: ptext 89 y ++ ptext 77 mo ++ ptext 87 w ++ ptext 68 d ++ s6 = s0 ++ r /\
       duration (Groups neg y mo w d None None None) s0 /\ at_end r = true).
  { intros He. exists (sign ++ 80%N :: ptext 89 y ++ ptext 77 mo ++ ptext 87 w ++ ptext 68 d), s6.
    split; [rewrite <- !app_assoc; simpl; rewrite <- !app_assoc; reflexivity|]. split; [|exact He].
    split; [repeat (apply Forall_cons; [assumption|]); apply Forall_nil|]. exists sign, []. split; [exact Hsign|].
    split; [left; repeat split|]. rewrite app_nil_r. reflexivity. }
  destruct s6 as [|t s7].
  - destruct (at_end []) eqn:He; [|discriminate]. intros H; injection H as <-. apply Hshort. reflexivity.
  - destruct (N.eqb_spec t 84) as [->|].
    + destruct (match_part 72 s7) as [h s8] eqn:F1. apply match_part_sound in F1. destruct F1 as [Hh ->].
      destruct (match_part 77 s8) as [mi s9] eqn:F2. apply match_part_sound in F2. destruct F2 as [Hmi ->].
      destruct (match_part 83 s9) as [se s10] eqn:F3. apply match_part_sound in F3. destruct F3 as [Hse ->].
      destruct (at_end s10) eqn:He; [|discriminate]. intros H; injection H as <-.
      exists (sign ++ 80%N :: ptext 89 y ++ ptext 77 mo ++ ptext 87 w ++ ptext 68 d ++
              84%N :: ptext 72 h ++ ptext 77 mi ++ ptext 83 se), s10.
      split.
      { rewrite <- !app_assoc. simpl. rewrite <- !app_assoc. simpl. rewrite <- !app_assoc. reflexivity. }
      split; [|exact He]. split; [repeat (apply Forall_cons; [assumption|]); apply Forall_nil|].
      exists sign, (84%N :: ptext 72 h ++ ptext 77 mi ++ ptext 83 se).
      split; [exact Hsign|]. split; [right; reflexivity|reflexivity].
    + destruct (at_end (t :: s7)) eqn:He; [|discriminate]. intros H; injection H as <-. apply Hshort. reflexivity.
Qed.

(** What the matcher needs of the end of the text. *)
Definition end_ok (at_end : str -> bool) : Prop :=
  forall r, at_end r = true -> stop r /\ (forall r', r <> 84%N :: r').

Lemma end_strict_ok : end_ok end_strict.
Proof. intros [|c r] H; [|discriminate]. split; [intros ? ? E; discriminate|discriminate]. Qed.

Lemma end_python_iff r : end_python r = true <-> r = [] \/ r = [10%N].
Proof.
  destruct r as [|c [|d r]]; simpl.
  - tauto.
  - rewrite andb_true_r, N.eqb_eq. split; [intros ->; tauto|intros [H|H]; [discriminate|congruence]].
  - rewrite andb_false_r. split; [discriminate|intros [H|H]; discriminate].
Qed.

Lemma end_python_ok : end_ok end_python.
Proof.
  intros r H. apply end_python_iff in H. destruct H as [->| ->].
  - split; [intros ? ? E; discriminate|discriminate].
  - split; [intros ? ? E; injection E as <- <-; reflexivity|discriminate].
Qed.

Lemma part_text_ptext u o : forall c, s_ u = [c] -> part_text u o = ptext c o.
Proof. intros c E. destruct o; simpl; [rewrite E|]; reflexivity. Qed.

Ltac parts :=
  repeat (apply Forall_cons; [split; [split; [reflexivity|discriminate]|split; [discriminate|assumption]]|]);
  apply Forall_nil.

Lemma match_duration_complete at_end s0 r g : end_ok at_end -> duration g s0 -> at_end r = true ->
  match_duration at_end (s0 ++ r) = Some g.
Proof.
  intros Hend (Hparts & sign & time & Hsign & Htime & ->) Hr.
  destruct (Hend r Hr) as [Hstop HT].
  destruct g as [neg y mo w d h mi se]. cbn [negative g_years g_months g_weeks g_days g_hours g_minutes g_seconds] in *.
  repeat match goal with H : Forall part_ok (_ :: _) |- _ => inversion H; clear H; subst end.
  rewrite !(part_text_ptext "Y" _ 89), !(part_text_ptext "M" _ 77), !(part_text_ptext "W" _ 87),
    !(part_text_ptext "D" _ 68), !(part_text_ptext "H" _ 72), !(part_text_ptext "S" _ 83) in * by reflexivity.
  rewrite <- !app_assoc. unfold match_duration. rewrite (match_sign_complete neg sign _ Hsign).
  change (s_ "P" ++ ?x) with (80%N :: x). cbv iota beta. rewrite N.eqb_refl.
  set (tail := time ++ r).
  assert (Htail : stop tail).
  { unfold tail. destruct Htime as [(-> & _)| ->]; [exact Hstop|].
    intros c r' E; injection E as <- _; reflexivity. }
  pose (l := [(89%N, y); (77%N, mo); (87%N, w); (68%N, d)]).
  replace (ptext 89 y ++ ptext 77 mo ++ ptext 87 w ++ ptext 68 d ++ tail) with (chain l ++ tail)
    by (simpl; rewrite <- !app_assoc; reflexivity).
  assert (HL : forall c, letter c -> letter c) by auto.
  unfold l. rewrite match_part_chain; [|split; [reflexivity|discriminate]|assumption| |exact Htail].
  2: { parts. }
  rewrite match_part_chain; [|split; [reflexivity|discriminate]|assumption| |exact Htail].
  2: { parts. }
  rewrite match_part_chain; [|split; [reflexivity|discriminate]|assumption| |exact Htail].
  2: { parts. }
  rewrite match_part_chain; [|split; [reflexivity|discriminate]|assumption| |exact Htail].
  2: { parts. }
  cbn [chain app]. unfold tail. destruct Htime as [(-> & -> & -> & ->)| ->].
  - cbn [app]. destruct r as [|c r]; [rewrite Hr; reflexivity|].
    destruct (N.eqb_spec c 84) as [->|]; [exfalso; exact (HT r eq_refl)|]. rewrite Hr. reflexivity.
  - change (s_ "T" ++ ?x) with (84%N :: x). cbn [app]. rewrite N.eqb_refl. rewrite <- !app_assoc.
    replace (ptext 72 h ++ ptext 77 mi ++ ptext 83 se ++ r)
      with (chain [(72%N, h); (77%N, mi); (83%N, se)] ++ r) by (simpl; rewrite <- !app_assoc; reflexivity).
    rewrite match_part_chain; [|split; [reflexivity|discriminate]|assumption| |exact Hstop].
    2: { parts. }
    rewrite match_part_chain; [|split; [reflexivity|discriminate]|assumption| |exact Hstop].
    2: { parts. }
    rewrite match_part_chain; [|split; [reflexivity|discriminate]|assumption| |exact Hstop].
    2: { parts. }
    cbn [chain app]. rewrite Hr. reflexivity.
Qed.

Lemma match_strict_iff s g : match_duration end_strict s = Some g <-> duration g s.
Proof.
  split.
  - intros H. apply match_duration_sound in H. destruct H as (s0 & r & -> & Hd & He).
    destruct r; [|discriminate]. rewrite app_nil_r. exact Hd.
  - intros H. rewrite <- (app_nil_r s). apply match_duration_complete; [exact end_strict_ok|exact H|reflexivity].
Qed.

Lemma match_python_iff s g : match_duration end_python s = Some g <->
  duration g s \/ exists s0, s = s0 ++ [10%N] /\ duration g s0.
Proof.
  split.
  - intros H. apply match_duration_sound in H. destruct H as (s0 & r & -> & Hd & He).
    apply end_python_iff in He. destruct He as [->| ->].
    + left. rewrite app_nil_r. exact Hd.
    + right. exists s0. split; [reflexivity|exact Hd].
  - intros [H|(s0 & -> & H)].
    + rewrite <- (app_nil_r s). apply match_duration_complete; [exact end_python_ok|exact H|reflexivity].
    + apply match_duration_complete; [exact end_python_ok|exact H|reflexivity].
Qed.

(** The groups are determined by the text. *)
Lemma duration_unique g g' s : duration g s -> duration g' s -> g = g'.
Proof. intros H H'. apply match_strict_iff in H, H'. congruence. Qed.
