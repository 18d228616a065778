(** C21: what the generated C++ function [tm_to_string] does. *)
From Verif Require Import Base M_CppTime M_CppGen S_CppGen.
From Coq Require Import List Arith NArith Bool Lia.
Import ListNotations.

Lemma bytes_size s : bytes s = utf8_size s.
Proof.
  unfold bytes. induction s as [|c s IH]; [reflexivity|]. cbn [flat_map]. rewrite app_length, IH. cbn [utf8_size fold_right].
  fold (utf8_size s). f_equal. unfold utf8, utf8_char. repeat destruct (_ <? _)%N; reflexivity.
Qed.

Lemma up_to_nul_c_str s t : up_to_nul s t <-> c_str s = t.
Proof.
  split.
  - intros [Hn H]. assert (E : forall r, r = [] \/ (exists q, r = 0%N :: q) -> c_str (t ++ r) = t).
    { intros r Hr. clear H s. induction t as [|c t IH]; cbn.
      - destruct Hr as [-> | (q & ->)]; reflexivity.
      - destruct (N.eqb_spec c 0); [destruct Hn; left; congruence|]. rewrite IH; [reflexivity|]. intros C. apply Hn. now right. }
    destruct H as [-> | (r & ->)]; [rewrite <- (app_nil_r t) at 1|]; apply E; eauto.
  - revert t. induction s as [|c s IH]; cbn.
    + intros t <-. split; [easy | now left].
    + intros t. destruct (N.eqb_spec c 0) as [-> | Hc]; intros <-; [split; [easy | right; now exists s]|].
      destruct (IH _ eq_refl) as [Hn H]. split; [intros [E | E]; [congruence | now apply Hn]|].
      destruct H as [H | (r & H)]; [left | right; exists r]; cbn; now rewrite <- H.
Qed.

(** A length which is not zero leaves the loop. *)
Lemma tm_loop_done max fuel text size len : (0 < len)%N -> tm_loop max (S fuel) text size len = TmText text.
Proof. intros H. simpl. destruct (N.eqb_spec len 0); [lia|reflexivity]. Qed.

(** The condition of the loop never changes: it doubles the buffer until it throws. *)
Lemma tm_loop_throws max text : forall fuel size, (0 < size)%N -> (max < 2 ^ N.of_nat fuel * size)%N ->
  tm_loop max fuel text size 0 = TmThrow \/ (fuel = 0).
Proof.
  induction fuel as [|fuel IH]; intros size Hs H; [right; reflexivity|]. left. simpl.
  destruct (N.ltb_spec max (size * 2)); [reflexivity|].
  destruct (IH (size * 2)%N) as [E|E]; [lia| |exact E|].
  - rewrite Nat2N.inj_succ, N.pow_succ_r' in H. lia.
  - subst. change (2 ^ N.of_nat 1)%N with 2%N in H. lia.
Qed.

Lemma size_pow_bound max : (max < 2 ^ N.of_nat (S (N.size_nat max)))%N.
Proof.
  rewrite Nat2N.inj_succ, N.pow_succ_r'.
  assert (H : (max < 2 ^ N.of_nat (N.size_nat max))%N).
  { replace (N.of_nat (N.size_nat max)) with (N.size max); [apply N.size_gt|].
    destruct max as [|p]; [reflexivity|]. simpl. induction p; simpl; lia. }
  lia.
Qed.

Lemma utf8_char_pos c : 0 < utf8_char c.
Proof. unfold utf8_char. repeat destruct (_ <? _)%N; lia. Qed.

Lemma utf8_size_pos s : s <> [] -> 0 < utf8_size s.
Proof. destruct s as [|c s]; [congruence|]. intros _. simpl. pose proof (utf8_char_pos c). lia. Qed.

Lemma tm_fits max fmt text :
  0 < utf8_size text < 4 * utf8_size fmt -> (4 * N.of_nat (utf8_size fmt) <= max)%N ->
  tm_to_string max fmt text = TmText text.
Proof.
  intros [H1 H2] H3. unfold tm_to_string. destruct fmt as [|c fmt]; [simpl in H2; lia|].
  destruct (N.ltb_spec max (N.of_nat (utf8_size (c :: fmt)) * 4)); [lia|].
  apply tm_loop_done. unfold strftime_len.
  destruct (N.ltb_spec (N.of_nat (utf8_size text)) (N.of_nat (utf8_size (c :: fmt)) * 4)); lia.
Qed.

Lemma tm_not_fits max fmt text : fmt <> [] ->
  ~ (0 < utf8_size text < 4 * utf8_size fmt /\ (4 * N.of_nat (utf8_size fmt) <= max)%N) ->
  tm_to_string max fmt text = TmThrow.
Proof.
  intros Hf H. pose proof (utf8_size_pos _ Hf) as Hp. unfold tm_to_string. destruct fmt as [|c fmt]; [congruence|].
  set (n := utf8_size (c :: fmt)) in *.
  destruct (N.ltb_spec max (N.of_nat n * 4)) as [|Hm]; [reflexivity|].
  assert (strftime_len text (N.of_nat n * 4) = 0%N) as ->.
  { unfold strftime_len. destruct (N.ltb_spec (N.of_nat (utf8_size text)) (N.of_nat n * 4)); [|reflexivity]. lia. }
  destruct (tm_loop_throws max text (S (N.size_nat max)) (N.of_nat n * 4)) as [E|E]; [lia| |exact E|discriminate].
  pose proof (size_pow_bound max). nia.
Qed.

(** The bound on the number of iterations in the model is never reached. *)
Lemma tm_fuel_suffices max fmt text : tm_to_string max fmt text <> TmFuel.
Proof.
  destruct fmt as [|c fmt]; [discriminate|].
  destruct (Nat.lt_ge_cases 0 (utf8_size text)) as [H1|H1];
  [destruct (Nat.lt_ge_cases (utf8_size text) (4 * utf8_size (c :: fmt))) as [H2|H2];
   [destruct (N.le_gt_cases (4 * N.of_nat (utf8_size (c :: fmt))) max) as [H3|H3]|]|];
  try (rewrite tm_fits by (try split; assumption); discriminate);
  rewrite tm_not_fits; try discriminate; lia.
Qed.
