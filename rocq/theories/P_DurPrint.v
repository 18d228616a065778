(** Printed durations and their round trips. *)
From Verif Require Import Base M_Dec M_Schema M_Duration S_Duration P_Float P_DurFloat P_DurRound P_Duration P_DurSum P_DurText.
From Coq Require Import String List ZArith NArith Bool Lia Floats.SpecFloat Zpower.
Import ListNotations.
Open Scope Z_scope.

Lemma digits_forallb s : forallb is_digit s = true <-> digits s.
Proof.
  unfold digits. rewrite forallb_forall, Forall_forall. split; intros H c Hc; apply is_digit_iff; auto.
Qed.

Lemma dec_number_ok n : number_ok (dec_N n, None).
Proof.
  split; [apply digits_forallb, dec_N_digits|]. split; [apply dec_N_nonempty|]. split; [|discriminate].
  simpl. intros r E. destruct (dec_N_shape n) as [H|(c & s & H & Hc & _)]; rewrite H in E.
  - injection E as <-. reflexivity.
  - injection E as -> <-. discriminate.
Qed.

Lemma dec_Z_nonneg z : 0 <= z -> dec_Z z = dec_N (Z.to_N z).
Proof. destruct z; simpl; try reflexivity. lia. Qed.

(** ** Zero-padded fractions *)

Lemma num_of_app s t : num_of (s ++ t) = num_go (num_of s) t.
Proof. apply num_go_app. Qed.

Lemma lstrip0_app s : exists z, s = z ++ lstrip0 s /\ (forall c, In c z -> c = 48%N).
Proof.
  induction s as [|c s (z & E & Hz)]; [exists []; split; [reflexivity|contradiction]|]. simpl.
  destruct (N.eqb_spec c 48) as [->|].
  - exists (48%N :: z). split; [rewrite E at 1; reflexivity|]. intros c [<-|Hc]; auto.
  - exists []. split; [reflexivity|contradiction].
Qed.

Lemma rstrip0_app s : exists z, s = rstrip0 s ++ z /\ (forall c, In c z -> c = 48%N).
Proof.
  unfold rstrip0. destruct (lstrip0_app (rev s)) as (z & E & Hz). exists (rev z). split.
  - rewrite <- rev_app_distr, <- E, rev_involutive. reflexivity.
  - intros c Hc. apply Hz. apply in_rev. exact Hc.
Qed.

Lemma rstrip0_num s : num_of s = (num_of (rstrip0 s) * 10 ^ N.of_nat (length s - length (rstrip0 s)))%N.
Proof.
  destruct (rstrip0_app s) as (z & E & Hz). rewrite E at 1. rewrite num_of_app, num_go_zeros by exact Hz.
  f_equal. f_equal. apply (f_equal (@length _)) in E. rewrite app_length in E. lia.
Qed.

Lemma rstrip0_length s : (length (rstrip0 s) <= length s)%nat.
Proof. destruct (rstrip0_app s) as (z & E & _). apply (f_equal (@length _)) in E. rewrite app_length in E. lia. Qed.

Lemma rstrip0_incl s c : In c (rstrip0 s) -> In c s.
Proof. destruct (rstrip0_app s) as (z & E & _). rewrite E at 2. intros H. apply in_or_app. left. exact H. Qed.

Lemma num_go_lower s acc : (acc * 10 ^ N.of_nat (length s) <= num_go acc s)%N.
Proof.
  revert acc. induction s as [|c s IH]; intros acc; simpl num_go.
  - simpl. lia.
  - eapply N.le_trans; [|apply IH]. simpl length. rewrite Nat2N.inj_succ, N.pow_succ_r by lia.
    assert (0 < 10 ^ N.of_nat (length s))%N by (apply N.neq_0_lt_0, N.pow_nonzero; lia). nia.
Qed.

Lemma dec_length n k : (n < 10 ^ N.of_nat k)%N -> (0 < k)%nat -> (length (dec_N n) <= k)%nat.
Proof.
  intros H Hk. destruct (dec_N_shape n) as [E|(c & s & E & Hc & _)]; rewrite E; [simpl; lia|].
  apply andb_true_iff in Hc. destruct Hc as [Hc _]. apply N.leb_le in Hc.
  pose proof (num_of_dec n) as En. rewrite E in En. unfold num_of in En. simpl num_go in En.
  pose proof (num_go_lower s (c - 48)) as L. rewrite En in L.
  assert (10 ^ N.of_nat (length s) < 10 ^ N.of_nat k)%N.
  { eapply N.le_lt_trans; [|exact H]. eapply N.le_trans; [|exact L].
    assert (1 <= c - 48)%N by lia. assert (0 < 10 ^ N.of_nat (length s))%N by (apply N.neq_0_lt_0, N.pow_nonzero; lia). nia. }
  assert (N.of_nat (length s) < N.of_nat k)%N by (apply (N.pow_lt_mono_r_iff 10); lia).
  simpl length. lia.
Qed.

Lemma pad_length k n : (n < 10 ^ N.of_nat k)%N -> (0 < k)%nat -> length (pad k n) = k.
Proof.
  intros H Hk. unfold pad. rewrite app_length, repeat_length. pose proof (dec_length n k H Hk). lia.
Qed.

Lemma pad_num k n : num_of (pad k n) = n.
Proof.
  unfold pad. rewrite num_of_app.
  assert (E : forall k, num_of (repeat 48%N k) = 0%N).
  { intros j. unfold num_of. rewrite num_go_zeros by (intros c Hc; apply repeat_spec in Hc; exact Hc). apply N.mul_0_l. }
  rewrite E. apply num_of_dec.
Qed.

Lemma pad_digits k n : digits (pad k n).
Proof.
  unfold pad. unfold S_Duration.digits. apply Forall_app. split.
  - apply Forall_forall. intros c Hc. apply repeat_spec in Hc. subst. lia.
  - apply digits_forallb, dec_N_digits.
Qed.

(** The fraction [n / 10^k] without trailing zeros. *)
Lemma fraction_text k n : (0 < n < 10 ^ N.of_nat k)%N -> (0 < k)%nat ->
  let f := rstrip0 (pad k n) in
  digits f /\ f <> [] /\ (length f <= k)%nat /\
  Z.of_N (num_of f) * 10 ^ Z.of_nat (k - length f) = Z.of_N n.
Proof.
  intros [Hn H] Hk f. pose proof (pad_length k n H Hk) as L. pose proof (rstrip0_length (pad k n)) as R. rewrite L in R.
  pose proof (rstrip0_num (pad k n)) as E. rewrite pad_num, L in E. fold f in E, R.
  split.
  { apply Forall_forall. intros c Hc. apply rstrip0_incl in Hc. pose proof (pad_digits k n) as D.
    unfold digits in D. rewrite Forall_forall in D. apply D. exact Hc. }
  split.
  { intros E'. rewrite E' in E. simpl in E. lia. }
  split; [exact R|]. apply (f_equal Z.of_N) in E. rewrite N2Z.inj_mul, N2Z.inj_pow, nat_N_Z in E. symmetry. exact E.
Qed.

Lemma rstrip0_suffix s t : rstrip0 t <> [] -> rstrip0 (s ++ t) = s ++ rstrip0 t.
Proof.
  unfold rstrip0. intros H. rewrite rev_app_distr.
  assert (A : forall u v, lstrip0 u <> [] -> lstrip0 (u ++ v) = lstrip0 u ++ v).
  { intros u v. induction u as [|c u IH]; simpl; [intros H'; exfalso; apply H'; reflexivity|].
    destruct (N.eqb c 48); [exact IH|reflexivity]. }
  rewrite A.
  - rewrite rev_app_distr, rev_involutive. reflexivity.
  - intros E. apply H. rewrite E. reflexivity.
Qed.

(** ** The printed text *)

Definition count (n : Z) : option number := if 0 <? n then Some (dec_N (Z.to_N n), None) else None.

Lemma count_ok n : part_ok (count n).
Proof. unfold count, part_ok. destruct (0 <? n); intros m E; [|discriminate]. injection E as <-. apply dec_number_ok. Qed.

Lemma count_integral n : 0 <= n -> integral (count n) n.
Proof.
  intros H. unfold count. destruct (Z.ltb_spec 0 n); simpl; [|lia]. rewrite num_of_dec. split; [reflexivity|lia].
Qed.

Lemma count_text u n : 0 <= n -> when (0 <? n) (dec_Z n ++ s_ u) = part_text u (count n).
Proof.
  intros H. unfold count. destruct (0 <? n); [|reflexivity]. simpl. rewrite dec_Z_nonneg by exact H.
  unfold number_text. simpl. rewrite app_nil_r. reflexivity.
Qed.

(** Seconds with [k] fraction digits. *)
Definition seconds_part (k : nat) (sec frac : Z) : option number :=
  if 0 <? frac then Some (dec_N (Z.to_N sec), Some (rstrip0 (pad k (Z.to_N frac)))) else count sec.

Lemma seconds_part_ok k sec frac : 0 <= sec -> 0 <= frac < 10 ^ Z.of_nat k -> (0 < k)%nat ->
  part_ok (seconds_part k sec frac) /\ (places (seconds_part k sec frac) <= k)%nat /\
  seconds_units k (seconds_part k sec frac) = sec * 10 ^ Z.of_nat k + frac.
Proof.
  intros Hs Hf Hk. unfold seconds_part. destruct (Z.ltb_spec 0 frac) as [H|H].
  - destruct (fraction_text k (Z.to_N frac)) as (D & Hne & L & E); [|exact Hk|].
    { assert (Z.of_N (Z.to_N frac) < Z.of_N (10 ^ N.of_nat k)).
      { rewrite N2Z.inj_pow, nat_N_Z, Z2N.id by lia. simpl Z.of_N. lia. }
      lia. }
    split; [|split].
    + intros n En; injection En as <-. destruct (dec_number_ok (Z.to_N sec)) as (A & B & C & _).
      split; [exact A|]. split; [exact B|]. split; [exact C|]. intros f Ef; injection Ef as <-. split; assumption.
    + exact L.
    + unfold seconds_units. rewrite num_of_dec, E, !Z2N.id by lia. reflexivity.
  - replace frac with 0 by lia. split; [apply count_ok|]. unfold count. destruct (Z.ltb_spec 0 sec); simpl places.
    + split; [lia|]. unfold seconds_units. rewrite num_of_dec, Z2N.id by lia. lia.
    + split; [lia|]. simpl. lia.
Qed.

Definition printed (neg : bool) (D H M : Z) (se : option number) : groups :=
  Groups neg None None None (count D) (count H) (count M) se.

Definition is_some {A} (o : option A) : bool := match o with Some _ => true | None => false end.

Lemma count_some n : is_some (count n) = (0 <? n).
Proof. unfold count. destruct (0 <? n); reflexivity. Qed.

Definition print_text (neg : bool) (D H M : Z) (se : option number) : str :=
  when neg (s_ "-") ++ s_ "P" ++ part_text "D" (count D) ++
  when ((0 <? H) || (0 <? M) || is_some se)
    (s_ "T" ++ part_text "H" (count H) ++ part_text "M" (count M) ++ part_text "S" se).

Lemma print_duration neg D H M se : part_ok se -> duration (printed neg D H M se) (print_text neg D H M se).
Proof.
  intros Hse. split.
  - unfold printed. cbn [g_years g_months g_weeks g_days g_hours g_minutes g_seconds].
    assert (Hn : part_ok None) by (intros ? E; discriminate).
    repeat (apply Forall_cons; [first [exact Hse|exact Hn|apply count_ok]|]). apply Forall_nil.
  - exists (when neg (s_ "-")), (when ((0 <? H) || (0 <? M) || is_some se)
        (s_ "T" ++ part_text "H" (count H) ++ part_text "M" (count M) ++ part_text "S" se)).
    split; [destruct neg; [reflexivity|left; reflexivity]|]. split; [|reflexivity].
    destruct ((0 <? H) || (0 <? M) || is_some se) eqn:E; [right; reflexivity|left].
    rewrite !orb_false_iff in E. destruct E as [[E1 E2] E3].
    rewrite <- count_some in E1, E2. simpl. split; [reflexivity|].
    destruct (count H); [discriminate|]. destruct (count M); [discriminate|]. destruct se; [discriminate|]. repeat split.
Qed.

Lemma In_T_part u o : (forall c, In c (s_ u) -> c <> 84%N) -> part_ok o -> ~ In 84%N (part_text u o).
Proof.
  intros Hu Ho. destruct o as [n|]; [|intros []]. specialize (Ho n eq_refl). destruct Ho as (A & _ & _ & B).
  unfold part_text, number_text. intros H. apply in_app_or in H. destruct H as [H|H].
  - apply in_app_or in H. destruct H as [H|H].
    + unfold digits in A. rewrite Forall_forall in A. specialize (A _ H). lia.
    + destruct (snd n) as [f|]; [|contradiction]. destruct (B f eq_refl) as [D _]. apply in_app_or in H. destruct H as [H|H].
      * simpl in H. destruct H as [H|[]]. discriminate.
      * unfold digits in D. rewrite Forall_forall in D. specialize (D _ H). lia.
  - exact (Hu _ H eq_refl).
Qed.

Lemma print_iso neg D H M se : part_ok se -> (0 < D \/ 0 < H \/ 0 < M \/ se <> None) ->
  iso_duration (printed neg D H M se) (print_text neg D H M se).
Proof.
  intros Hse Hpos. split; [apply print_duration; exact Hse|].
  assert (C : forall n, 0 < n -> count n <> None).
  { intros n Hn. unfold count. destruct (Z.ltb_spec 0 n); [discriminate|lia]. }
  unfold printed. cbn [g_years g_months g_weeks g_days g_hours g_minutes g_seconds]. split.
  - destruct Hpos as [P|[P|[P|P]]].
    + exists (count D). split; [simpl; tauto|apply C; exact P].
    + exists (count H). split; [simpl; tauto|apply C; exact P].
    + exists (count M). split; [simpl; tauto|apply C; exact P].
    + exists se. split; [simpl; tauto|exact P].
  - unfold print_text. intros HT.
    destruct ((0 <? H) || (0 <? M) || is_some se) eqn:E.
    + rewrite !orb_true_iff in E. destruct E as [[E|E]|E].
      * exists (count H). split; [simpl; tauto|apply C; lia].
      * exists (count M). split; [simpl; tauto|apply C; lia].
      * exists se. split; [simpl; tauto|]. destruct se; discriminate.
    + exfalso. simpl when in HT. rewrite app_nil_r in HT. apply in_app_or in HT. destruct HT as [HT|HT].
      * destruct neg; simpl in HT; [destruct HT as [HT|[]]; discriminate|contradiction].
      * apply in_app_or in HT. destruct HT as [HT|HT]; [simpl in HT; destruct HT as [HT|[]]; discriminate|].
        revert HT. apply In_T_part; [simpl; intros c [<-|[]]; discriminate|apply count_ok].
Qed.

(** ** Go and C++ *)

(** The components of a non-negative number of nanoseconds. *)
Lemma quot_rem_split a : 0 <= a ->
  let days := Z.quot a 86400000000000 in
  let r1 := Z.rem a 86400000000000 in
  let hours := Z.quot r1 3600000000000 in
  let r2 := Z.rem r1 3600000000000 in
  let minutes := Z.quot r2 60000000000 in
  let r3 := Z.rem r2 60000000000 in
  let seconds := Z.quot r3 1000000000 in
  let nanos := Z.rem r3 1000000000 in
  0 <= days /\ 0 <= hours /\ 0 <= minutes /\ 0 <= seconds /\ 0 <= nanos < 1000000000 /\
  a = seconds * 1000000000 + nanos + (minutes * 60 + hours * 3600 + days * 86400) * 1000000000.
Proof.
  intros Ha. cbv zeta.
  pose proof (Z.quot_rem' a 86400000000000) as E1. pose proof (Z.rem_bound_pos a 86400000000000 Ha ltac:(lia)) as B1.
  pose proof (Z.quot_pos a 86400000000000 Ha ltac:(lia)) as P1.
  set (r1 := Z.rem a 86400000000000) in *. set (d := Z.quot a 86400000000000) in *.
  pose proof (Z.quot_rem' r1 3600000000000) as E2. pose proof (Z.rem_bound_pos r1 3600000000000 ltac:(lia) ltac:(lia)) as B2.
  pose proof (Z.quot_pos r1 3600000000000 ltac:(lia) ltac:(lia)) as P2.
  set (r2 := Z.rem r1 3600000000000) in *. set (h := Z.quot r1 3600000000000) in *.
  pose proof (Z.quot_rem' r2 60000000000) as E3. pose proof (Z.rem_bound_pos r2 60000000000 ltac:(lia) ltac:(lia)) as B3.
  pose proof (Z.quot_pos r2 60000000000 ltac:(lia) ltac:(lia)) as P3.
  set (r3 := Z.rem r2 60000000000) in *. set (m := Z.quot r2 60000000000) in *.
  pose proof (Z.quot_rem' r3 1000000000) as E4. pose proof (Z.rem_bound_pos r3 1000000000 ltac:(lia) ltac:(lia)) as B4.
  pose proof (Z.quot_pos r3 1000000000 ltac:(lia) ltac:(lia)) as P4.
  lia.
Qed.

Lemma is_some_seconds k sec frac : 0 <= frac -> is_some (seconds_part k sec frac) = (0 <? sec) || (0 <? frac).
Proof.
  intros H. unfold seconds_part. destruct (0 <? frac); [rewrite orb_true_r; reflexivity|].
  rewrite count_some, orb_false_r. reflexivity.
Qed.

Lemma seconds_text k sec frac : 0 <= sec -> 0 <= frac ->
  (if (frac =? 0) then when (0 <? sec) (dec_Z sec ++ s_ "S")
   else dec_Z sec ++ s_ "." ++ rstrip0 (pad k (Z.to_N frac)) ++ s_ "S") =
  part_text "S" (seconds_part k sec frac).
Proof.
  intros Hs Hf. unfold seconds_part. destruct (Z.eqb_spec frac 0) as [->|]; simpl Z.ltb.
  - apply count_text. exact Hs.
  - destruct (Z.ltb_spec 0 frac); [|lia]. unfold part_text, number_text. cbn [fst snd].
    rewrite dec_Z_nonneg by exact Hs. rewrite <- !app_assoc. reflexivity.
Qed.

(** The text of [a] nanoseconds with the given sign. *)
Definition ns_text (neg : bool) (a : Z) : str :=
  let days := Z.quot a 86400000000000 in
  let rest := Z.rem a 86400000000000 in
  let hours := Z.quot rest 3600000000000 in
  let rest := Z.rem rest 3600000000000 in
  let minutes := Z.quot rest 60000000000 in
  let rest := Z.rem rest 60000000000 in
  print_text neg days hours minutes (seconds_part 9 (Z.quot rest 1000000000) (Z.rem rest 1000000000)).

Lemma wrap64_small z : min_int64 <= z <= max_int64 -> wrap64 z = z.
Proof.
  intros H. unfold wrap64, min_int64, max_int64 in *. rewrite Z.mod_small; lia.
Qed.

Lemma go_dur_to_text d : min_int64 < d <= max_int64 -> go_dur_to d = ns_text (d <? 0) (Z.abs d).
Proof.
  intros Hd. unfold go_dur_to, ns_text, print_text. cbv zeta.
  assert (Ea : (if d <? 0 then wrap64 (- d) else d) = Z.abs d).
  { destruct (Z.ltb_spec d 0).
    - rewrite wrap64_small; [lia|]. unfold min_int64, max_int64 in *. lia.
    - lia. }
  rewrite Ea. destruct (quot_rem_split (Z.abs d) ltac:(lia)) as (P1 & P2 & P3 & P4 & P5 & _).
  set (days := Z.quot (Z.abs d) _) in *. set (r1 := Z.rem (Z.abs d) _) in *.
  set (hours := Z.quot r1 _) in *. set (r2 := Z.rem r1 _) in *.
  set (minutes := Z.quot r2 _) in *. set (r3 := Z.rem r2 _) in *.
  set (seconds := Z.quot r3 _) in *. set (nanos := Z.rem r3 _) in *.
  rewrite !count_text by assumption. rewrite is_some_seconds by lia. rewrite !orb_assoc.
  rewrite <- seconds_text by lia.
  do 4 f_equal. do 3 f_equal. destruct (Z.eqb_spec nanos 0); [symmetry; apply count_text; exact P4|].
  rewrite app_assoc. rewrite rstrip0_suffix.
  - rewrite <- !app_assoc. reflexivity.
  - destruct (fraction_text 9 (Z.to_N nanos)) as (_ & Hne & _); [simpl; lia|lia|exact Hne].
Qed.

Lemma cpp_dur_to_text d : min_int64 < d <= max_int64 -> cpp_dur_to d = CppOk (ns_text (d <? 0) (Z.abs d)).
Proof.
  intros Hd. unfold cpp_dur_to, ns_text, print_text. cbv zeta.
  assert (Ea : (if d <? 0 then wrap64 (- d) else d) = Z.abs d).
  { destruct (Z.ltb_spec d 0).
    - rewrite wrap64_small; [lia|]. unfold min_int64, max_int64 in *. lia.
    - lia. }
  rewrite Ea. destruct (Z.ltb_spec (Z.abs d) 0); [lia|]. f_equal.
  destruct (quot_rem_split (Z.abs d) ltac:(lia)) as (P1 & P2 & P3 & P4 & P5 & _).
  set (days := Z.quot (Z.abs d) _) in *. set (r1 := Z.rem (Z.abs d) _) in *.
  set (hours := Z.quot r1 _) in *. set (r2 := Z.rem r1 _) in *.
  set (minutes := Z.quot r2 _) in *. set (r3 := Z.rem r2 _) in *.
  set (seconds := Z.quot r3 _) in *. set (nanos := Z.rem r3 _) in *.
  rewrite !count_text by assumption. rewrite is_some_seconds by lia. rewrite !orb_assoc.
  rewrite <- seconds_text by lia. rewrite count_text by assumption. reflexivity.
Qed.

Lemma ns_text_groups neg a : 0 <= a ->
  exists days hours minutes se,
    0 <= days /\ 0 <= hours /\ 0 <= minutes /\ part_ok se /\ (places se <= 9)%nat /\
    ns_text neg a = print_text neg days hours minutes se /\
    (a <> 0 -> 0 < days \/ 0 < hours \/ 0 < minutes \/ se <> None) /\
    exact_ns 0 days hours minutes se = a.
Proof.
  intros Ha. destruct (quot_rem_split a Ha) as (P1 & P2 & P3 & P4 & P5 & E).
  set (days := Z.quot a _) in *. set (r1 := Z.rem a _) in *.
  set (hours := Z.quot r1 _) in *. set (r2 := Z.rem r1 _) in *.
  set (minutes := Z.quot r2 _) in *. set (r3 := Z.rem r2 _) in *.
  set (seconds := Z.quot r3 _) in *. set (nanos := Z.rem r3 _) in *.
  destruct (seconds_part_ok 9 seconds nanos P4) as (A & B & C); [change (10 ^ Z.of_nat 9) with 1000000000; lia|lia|].
  exists days, hours, minutes, (seconds_part 9 seconds nanos). repeat (split; [assumption|]).
  split; [reflexivity|]. split.
  - intros Hn. destruct (Z.ltb_spec 0 days); [tauto|]. destruct (Z.ltb_spec 0 hours); [tauto|].
    destruct (Z.ltb_spec 0 minutes); [tauto|]. right. right. right. intros Hse.
    pose proof (is_some_seconds 9 seconds nanos ltac:(lia)) as I. rewrite Hse in I. simpl in I. symmetry in I.
    apply orb_false_iff in I. destruct I as [I1 I2]. apply Z.ltb_ge in I1, I2. lia.
  - unfold exact_ns. rewrite C. change (10 ^ Z.of_nat 9) with 1000000000. lia.
Qed.

Lemma go_round_trip d : min_int64 < d <= max_int64 -> go_dur_from (go_dur_to d) = Some d.
Proof.
  intros Hd. rewrite go_dur_to_text by exact Hd.
  destruct (ns_text_groups (d <? 0) (Z.abs d) ltac:(lia)) as (D & H & M & se & P1 & P2 & P3 & Hse & Hp & -> & _ & E).
  rewrite (go_exact (printed (d <? 0) D H M se) _ 0 D H M); try assumption; try reflexivity;
    try (apply count_integral; assumption); [|apply print_duration; exact Hse].
  simpl g_seconds. rewrite E. cbv zeta. destruct (Z.leb_spec (Z.abs d) max_int64); [|unfold min_int64, max_int64 in *; lia].
  simpl negative. destruct (Z.ltb_spec d 0); f_equal; lia.
Qed.

Lemma cpp_round_trip d : min_int64 < d <= max_int64 ->
  exists s, cpp_dur_to d = CppOk s /\ cpp_dur_from false s = CppOk d.
Proof.
  intros Hd. rewrite cpp_dur_to_text by exact Hd. eexists; split; [reflexivity|].
  destruct (ns_text_groups (d <? 0) (Z.abs d) ltac:(lia)) as (D & H & M & se & P1 & P2 & P3 & Hse & Hp & -> & _ & E).
  apply (cpp_exact (printed (d <? 0) D H M se) _ 0 D H M); try assumption; try reflexivity;
    try (apply count_integral; assumption); [apply print_duration; exact Hse|].
  simpl g_seconds. rewrite E. simpl negative. unfold min_int64, max_int64 in *. split; [lia|].
  destruct (Z.ltb_spec d 0); lia.
Qed.

(** ** Python *)

Lemma modf_nonneg f i fr : fnonneg f -> modf f = Some (i, fr) -> 0 <= i /\ fnonneg fr.
Proof.
  destruct f as [s|s| |s m e]; cbn [fnonneg modf]; try discriminate.
  - intros _ E; injection E as <- <-. split; [lia|exact I].
  - intros ->. destruct (Z.leb_spec 0 e); intros E; injection E as <- <-.
    + split; [pose proof (pow2_pos e); change (0 <= Zpos m * 2 ^ e); apply Z.mul_nonneg_nonneg; lia|exact I].
    + pose proof (pow2_pos (- e) ltac:(lia)). split; [apply Z.div_pos; lia|].
      unfold binary_normalize. pose proof (Z.mod_pos_bound (Zpos m) (2 ^ (- e)) ltac:(lia)).
      destruct (Zpos m mod 2 ^ (- e)); [exact I|apply binary_round_nonneg|lia].
Qed.

Lemma modf_big f i fr : fbig 53 f -> modf f = Some (i, fr) -> 2 ^ 53 <= i.
Proof.
  intros H E. assert (Hfin : finite f) by (destruct f; simpl in *; try exact I; discriminate).
  destruct (floor_exists f (fbig_nonneg _ _ H) Hfin) as (z & _ & Hz).
  destruct (modf_floor f z Hz) as (fr' & E'). rewrite E in E'. injection E' as -> _.
  apply (fbig_floor 53 f); [lia|exact H|exact Hz].
Qed.

Definition factor_ok (factor : Z) : Prop :=
  0 < factor /\ fnonneg (binary_normalize 53 1024 factor 0 false) /\
  finite (binary_normalize 53 1024 factor 0 false) /\ (forall s, binary_normalize 53 1024 factor 0 false <> S754_zero s).

Lemma fmul_comm_nonneg f g : fnonneg f -> finite f -> (forall s, f <> S754_zero s) -> fnonneg g -> fnonneg (fmul f g).
Proof.
  unfold fmul. destruct f as [s|s| |s m e]; destruct g as [s'|s'| |s' m' e']; simpl; intros Hf Hfin Hz Hg;
    try contradiction; subst; try (exfalso; exact (Hz s eq_refl)); try exact I; try reflexivity.
  apply round_aux_nonneg. lia.
Qed.

Lemma accum_lower factor x s l s' l' : factor_ok factor -> fnonneg x ->
  accum factor x (s, l) = Some (s', l') -> s <= s' /\ (fbig 53 x -> s + 2 ^ 53 * factor <= s').
Proof.
  intros (Hf & F1 & F2 & F3) Hx. unfold accum.
  destruct (modf x) as [[i f]|] eqn:E; [|discriminate].
  destruct (modf_nonneg x i f Hx E) as [Hi Hfr].
  assert (K : forall j, 0 <= j -> s <= s + i * factor + j /\ (fbig 53 x -> s + 2 ^ 53 * factor <= s + i * factor + j)).
  { intros j Hj. split; [nia|]. intros Hb. pose proof (modf_big x i f Hb E). nia. }
  destruct (is_zero f).
  - intros H; injection H as <- _. destruct (K 0 ltac:(lia)) as [K1 K2]. split; [lia|]. intros Hb. specialize (K2 Hb). lia.
  - destruct (modf (fmul _ f)) as [[j g]|] eqn:E2; [|discriminate]. intros H; injection H as <- _. apply K.
    apply (modf_nonneg _ j g (fmul_comm_nonneg _ _ F1 F2 F3 Hfr) E2).
Qed.

Lemma accum_exact factor x n s l : fval x n -> accum factor x (s, l) = Some (s + n * factor, l).
Proof. intros H. unfold accum. destruct (modf_int x n H) as [sg E]. rewrite E. reflexivity. Qed.

Lemma round_leftover_lower sum l : sum <= round_leftover sum l.
Proof.
  unfold round_leftover. destruct l as [s|s| |[] m e]; try lia.
  destruct (Z.leb_spec 0 e).
  - pose proof (pow2_pos e ltac:(lia)). nia.
  - pose proof (pow2_pos (- e) ltac:(lia)). pose proof (Z.div_pos (Zpos m) (2 ^ (- e)) ltac:(lia) ltac:(lia)).
    destruct (Z.compare _ _); try lia. destruct (Z.even _); lia.
Qed.

Lemma approx_add f g a b : approx f a -> approx g b -> approx (fadd f g) (a + b).
Proof.
  intros Hf Hg. pose proof (approx_nonneg _ _ Hf) as [Ha Fa]. pose proof (approx_nonneg _ _ Hg) as [Hb Fb].
  destruct Hf as [[Vf Lf]|[Lf Bf]].
  - destruct Hg as [[Vg Lg]|[Lg Bg]].
    + destruct (Z_lt_le_dec (a + b) (2 ^ 53)).
      * left. split; [|assumption]. apply fadd_int; assumption.
      * right. split; [assumption|]. apply (fadd_big 53 f g a b); try assumption. lia.
    + right. split; [lia|]. apply fadd_big_r; try assumption. lia.
  - right. split; [lia|]. apply fadd_big_l; try assumption. lia.
Qed.

Lemma factor_minute : factor_ok 60000000.
Proof. split; [lia|]. split; [vm_compute; reflexivity|]. split; [vm_compute; exact I|]. intros s H. vm_compute in H. discriminate. Qed.
Lemma factor_hour : factor_ok 3600000000.
Proof. split; [lia|]. split; [vm_compute; reflexivity|]. split; [vm_compute; exact I|]. intros s H. vm_compute in H. discriminate. Qed.
Lemma factor_day : factor_ok us_per_day.
Proof. split; [unfold us_per_day; lia|]. split; [vm_compute; reflexivity|]. split; [vm_compute; exact I|]. intros s H. vm_compute in H. discriminate. Qed.

Definition exact_us (w d h mi : Z) (o : option number) : Z :=
  seconds_units 6 o + (mi * 60 + h * 3600 + d * 86400 + w * 604800) * 1000000.

Definition signed (neg : bool) (z : Z) : Z := if neg then - z else z.

Lemma py_exact g s w d h mi : (duration g s \/ exists s0, s = s0 ++ [10%N] /\ duration g s0) ->
  (places (g_seconds g) <= 6)%nat ->
  g_years g = None -> g_months g = None -> integral (g_weeks g) w -> integral (g_days g) d ->
  integral (g_hours g) h -> integral (g_minutes g) mi ->
  py_dur_from s = (let total := exact_us w d h mi (g_seconds g) in
                   if timedelta_ok total && timedelta_ok (signed (negative g) total)
                   then Some (signed (negative g) total) else None).
Proof.
  intros Hs Hp Hy Hmo Hw Hd Hh Hmi. cbv zeta. unfold py_dur_from. apply match_python_iff in Hs. rewrite Hs.
  destruct (fraction_units 6 (fraction_of (g_seconds g))) as [us|] eqn:Ef.
  2: { exfalso. assert (E : fraction_units 6 (fraction_of (g_seconds g)) =
        Some (seconds_units 6 (g_seconds g) - seconds_of (g_seconds g) * 10 ^ Z.of_nat 6)).
      { apply fraction_units_iff. split; [exact Hp|lia]. }
      congruence. }
  pose proof (fraction_units_nonneg _ _ _ Ef) as Hus. apply fraction_units_iff in Ef. destruct Ef as [_ Hu].
  change (10 ^ Z.of_nat 6) with 1000000 in Hu. rewrite Hu.
  rewrite Hy, Hmo. change (float_or_zero None) with (S754_zero false).
  change (fmul (S754_zero false) c365_2425) with (S754_zero false).
  change (fmul (S754_zero false) c30_436875) with (S754_zero false).
  change (fadd (S754_zero false) (S754_zero false)) with (S754_zero false).
  set (days := fadd (fadd (S754_zero false) _) _).
  assert (Ad : approx days (0 + w * 7 + d)).
  { apply approx_add; [|apply part_approx; exact Hd]. apply approx_add; [left; split; [reflexivity|lia]|].
    apply approx_mul; [apply part_approx; exact Hw|vm_compute; reflexivity|lia]. }
  pose proof (part_approx _ _ Hh) as Ah. pose proof (part_approx _ _ Hmi) as Am.
  assert (Hsec : 0 <= seconds_units 6 (g_seconds g)).
  { pose proof (seconds_le_total 6 (g_seconds g) ltac:(lia)). pose proof (seconds_of_nonneg (g_seconds g)).
    change (10 ^ Z.of_nat 6) with 1000000 in *. lia. }
  pose proof (approx_nonneg _ _ Ad) as [Nd Fd]. pose proof (approx_nonneg _ _ Ah) as [Nh Fh].
  pose proof (approx_nonneg _ _ Am) as [Nm Fm].
  pose proof (integral_nonneg _ _ Hw) as Nw. pose proof (integral_nonneg _ _ Hd) as Nd'.
  set (S0 := seconds_units 6 (g_seconds g)) in *.
  assert (Big : 1000000000 * us_per_day <= exact_us w d h mi (g_seconds g) ->
    (if timedelta_ok (exact_us w d h mi (g_seconds g)) && timedelta_ok (signed (negative g) (exact_us w d h mi (g_seconds g)))
     then Some (signed (negative g) (exact_us w d h mi (g_seconds g))) else None) = None).
  { intros HB. replace (timedelta_ok (exact_us w d h mi (g_seconds g))) with false; [reflexivity|].
    symmetry. unfold timedelta_ok. apply andb_false_iff. right. apply Z.ltb_ge. exact HB. }
  assert (Over : forall sum l, 1000000000 * us_per_day <= sum -> 
    (if timedelta_ok (round_leftover sum l) then
       if timedelta_ok (if negative g then - round_leftover sum l else round_leftover sum l)
       then Some (if negative g then - round_leftover sum l else round_leftover sum l) else None else None) = None).
  { intros sum l HB. replace (timedelta_ok (round_leftover sum l)) with false; [reflexivity|].
    symmetry. unfold timedelta_ok. apply andb_false_iff. right. apply Z.ltb_ge. pose proof (round_leftover_lower sum l). lia. }
  unfold exact_us in *. fold S0 in Big |- *.
  destruct Am as [[Vm Lm]|[Lm Bm]].
  - rewrite (accum_exact _ _ _ _ _ Vm).
    destruct Ah as [[Vh Lh]|[Lh Bh]].
    + rewrite (accum_exact _ _ _ _ _ Vh).
      destruct Ad as [[Vd Ld]|[Ld Bd]].
      * rewrite (accum_exact _ _ _ _ _ Vd). change (round_leftover ?a (S754_zero false)) with a.
        unfold us_per_day, signed in *.
        replace (S0 + mi * 60000000 + h * 3600000000 + (0 + w * 7 + d) * 86400000000)
          with (S0 + (mi * 60 + h * 3600 + d * 86400 + w * 604800) * 1000000) by lia.
        destruct (timedelta_ok _); [|reflexivity]. simpl. reflexivity.
      * destruct (accum us_per_day days _) as [[sum l]|] eqn:E.
        -- destruct (accum_lower _ _ _ _ _ _ factor_day Fd E) as [_ L]. specialize (L Bd).
           rewrite Over by (unfold us_per_day in *; lia). symmetry. apply Big. unfold us_per_day. lia.
        -- symmetry. apply Big. unfold us_per_day. lia.
    + destruct (accum 3600000000 _ _) as [[s2 l2]|] eqn:E2; [|symmetry; apply Big; unfold us_per_day; lia].
      destruct (accum_lower _ _ _ _ _ _ factor_hour Fh E2) as [_ L2]. specialize (L2 Bh).
      destruct (accum us_per_day days _) as [[sum l]|] eqn:E; [|symmetry; apply Big; unfold us_per_day; lia].
      destruct (accum_lower _ _ _ _ _ _ factor_day Fd E) as [L _].
      rewrite Over by (unfold us_per_day in *; lia). symmetry. apply Big. unfold us_per_day. lia.
  - destruct (accum 60000000 _ _) as [[s1 l1]|] eqn:E1; [|symmetry; apply Big; unfold us_per_day; lia].
    destruct (accum_lower _ _ _ _ _ _ factor_minute Fm E1) as [_ L1]. specialize (L1 Bm).
    destruct (accum 3600000000 _ _) as [[s2 l2]|] eqn:E2; [|symmetry; apply Big; unfold us_per_day; lia].
    destruct (accum_lower _ _ _ _ _ _ factor_hour Fh E2) as [L2 _].
    destruct (accum us_per_day days _) as [[sum l]|] eqn:E; [|symmetry; apply Big; unfold us_per_day; lia].
    destruct (accum_lower _ _ _ _ _ _ factor_day Fd E) as [L _].
    rewrite Over by (unfold us_per_day in *; lia). symmetry. apply Big. unfold us_per_day. lia.
Qed.

(** Python never returns a value out of the range of timedelta. *)
Lemma py_dur_from_range s us : py_dur_from s = Some us ->
  timedelta_ok us = true /\
  exists g, (duration g s \/ exists s0, s = s0 ++ [10%N] /\ duration g s0) /\ (places (g_seconds g) <= 6)%nat.
Proof.
  unfold py_dur_from. destruct (match_duration end_python s) as [g|] eqn:E; [|discriminate].
  apply match_python_iff in E.
  destruct (fraction_units 6 (fraction_of (g_seconds g))) as [u|] eqn:Ef; [|discriminate].
  apply fraction_units_iff in Ef. destruct Ef as [Hp _].
  destruct (accum _ _ _); [|discriminate]. destruct (accum _ _ _); [|discriminate].
  destruct (accum _ _ _) as [[sum l]|]; [|discriminate].
  destruct (timedelta_ok (round_leftover sum l)); [|discriminate].
  destruct (timedelta_ok (if negative g then _ else _)) eqn:Et; [|discriminate].
  intros H; injection H as <-. split; [exact Et|]. exists g. split; assumption.
Qed.

Lemma py_split a : 0 <= a ->
  let days := a / us_per_day in
  let seconds := a mod us_per_day / 1000000 in
  let micro := a mod 1000000 in
  let hours := seconds / 3600 in
  let minutes := seconds mod 3600 / 60 in
  let secs := seconds mod 60 in
  0 <= days /\ 0 <= hours /\ 0 <= minutes /\ 0 <= secs /\ 0 <= micro < 1000000 /\ 0 <= seconds /\
  seconds = hours * 3600 + minutes * 60 + secs /\
  a = secs * 1000000 + micro + (minutes * 60 + hours * 3600 + days * 86400) * 1000000.
Proof.
  intros Ha. cbv zeta. unfold us_per_day.
  pose proof (Z.div_mod a 86400000000 ltac:(lia)) as E1. pose proof (Z.mod_pos_bound a 86400000000 ltac:(lia)) as B1.
  pose proof (Z.div_pos a 86400000000 Ha ltac:(lia)).
  set (r := a mod 86400000000) in *. set (d := a / 86400000000) in *.
  pose proof (Z.div_mod r 1000000 ltac:(lia)) as E2. pose proof (Z.mod_pos_bound r 1000000 ltac:(lia)) as B2.
  pose proof (Z.div_pos r 1000000 ltac:(lia) ltac:(lia)).
  assert (Em : a mod 1000000 = r mod 1000000).
  { rewrite E1. replace (86400000000 * d + r) with (r + (86400 * d) * 1000000) by lia. apply Z.mod_add. lia. }
  rewrite Em. set (s := r / 1000000) in *. set (u := r mod 1000000) in *.
  pose proof (Z.div_mod s 3600 ltac:(lia)) as E3. pose proof (Z.mod_pos_bound s 3600 ltac:(lia)) as B3.
  pose proof (Z.div_pos s 3600 ltac:(lia) ltac:(lia)).
  assert (Es : s mod 60 = (s mod 3600) mod 60).
  { rewrite E3 at 1. replace (3600 * (s / 3600) + s mod 3600) with (s mod 3600 + (60 * (s / 3600)) * 60) by lia.
    apply Z.mod_add. lia. }
  rewrite Es. set (q := s mod 3600) in *. set (h := s / 3600) in *.
  pose proof (Z.div_mod q 60 ltac:(lia)) as E4. pose proof (Z.mod_pos_bound q 60 ltac:(lia)) as B4.
  pose proof (Z.div_pos q 60 ltac:(lia) ltac:(lia)).
  lia.
Qed.

Lemma py_text_groups us :
  exists days hours minutes se,
    0 <= days /\ 0 <= hours /\ 0 <= minutes /\ part_ok se /\ (places se <= 6)%nat /\
    py_dur_to us = print_text (us <? 0) days hours minutes se /\
    (us <> 0 -> 0 < days \/ 0 < hours \/ 0 < minutes \/ se <> None) /\
    exact_us 0 days hours minutes se = Z.abs us.
Proof.
  destruct (py_split (Z.abs us) ltac:(lia)) as (P1 & P2 & P3 & P4 & P5 & P6 & E1 & E2).
  unfold py_dur_to, print_text. cbv zeta.
  set (days := Z.abs us / us_per_day) in *. set (sec := Z.abs us mod us_per_day / 1000000) in *.
  set (micro := Z.abs us mod 1000000) in *. set (hours := sec / 3600) in *.
  set (minutes := sec mod 3600 / 60) in *. set (secs := sec mod 60) in *.
  destruct (seconds_part_ok 6 secs micro P4) as (A & B & C); [change (10 ^ Z.of_nat 6) with 1000000; lia|lia|].
  exists days, hours, minutes, (seconds_part 6 secs micro). repeat (split; [assumption|]). split; [|split].
  - rewrite !count_text by assumption. rewrite is_some_seconds by lia. rewrite <- seconds_text by lia.
    do 4 f_equal.
    + destruct (Z.ltb_spec 0 sec); destruct (Z.ltb_spec 0 micro); destruct (Z.ltb_spec 0 hours);
        destruct (Z.ltb_spec 0 minutes); destruct (Z.ltb_spec 0 secs); try reflexivity; lia.
    + do 3 f_equal. destruct (Z.ltb_spec 0 micro); destruct (Z.eqb_spec micro 0); try lia;
        first [reflexivity|symmetry; apply count_text; assumption].
  - intros Hn. destruct (Z.ltb_spec 0 days); [tauto|]. destruct (Z.ltb_spec 0 hours); [tauto|].
    destruct (Z.ltb_spec 0 minutes); [tauto|]. right. right. right. intros Hse.
    pose proof (is_some_seconds 6 secs micro ltac:(lia)) as I. rewrite Hse in I. simpl in I. symmetry in I.
    apply orb_false_iff in I. destruct I as [I1 I2]. apply Z.ltb_ge in I1, I2. lia.
  - unfold exact_us. rewrite C. change (10 ^ Z.of_nat 6) with 1000000. lia.
Qed.

Lemma py_round_trip us : timedelta_ok us = true -> py_dur_from (py_dur_to us) = Some us.
Proof.
  intros Hr. destruct (py_text_groups us) as (D & H & M & se & P1 & P2 & P3 & Hse & Hp & -> & _ & E).
  rewrite (py_exact (printed (us <? 0) D H M se) _ 0 D H M); try assumption; try reflexivity;
    try (apply count_integral; assumption); [|left; apply print_duration; exact Hse].
  simpl g_seconds. rewrite E. simpl negative. cbv zeta.
  assert (Es : signed (us <? 0) (Z.abs us) = us) by (unfold signed; destruct (Z.ltb_spec us 0); lia).
  rewrite Es, Hr. replace (timedelta_ok (Z.abs us)) with true; [reflexivity|]. symmetry.
  unfold timedelta_ok, us_per_day in *. apply andb_true_iff in Hr. destruct Hr as [H1 H2].
  apply Z.leb_le in H1. apply Z.ltb_lt in H2. apply andb_true_iff. split; [apply Z.leb_le|apply Z.ltb_lt]; lia.
Qed.
