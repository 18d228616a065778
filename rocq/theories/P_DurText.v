(** Exactness on texts without fractions and the round trips. *)
From Verif Require Import Base M_Dec M_Schema M_Duration S_Duration P_Float P_DurFloat P_DurRound P_Duration P_DurSum.
From Coq Require Import String List ZArith NArith Bool Lia Floats.SpecFloat Zpower.
Import ListNotations.
Open Scope Z_scope.

(** ** General characterisation: Go *)

Lemma sign_cases g total d : (if negative g then - total else total) = d <-> d = (if negative g then - total else total).
Proof. split; congruence. Qed.

Lemma seconds_le_total k o : 0 <= Z.of_nat k -> seconds_of o * 10 ^ Z.of_nat k <= seconds_units k o.
Proof.
  intros Hk. destruct o as [[ds [f|]]|]; unfold seconds_of, seconds_units; try lia.
Qed.

Lemma sum_floor_nonneg rs zs : Forall2 floor_is rs zs -> 0 <= sumZ zs.
Proof.
  intros H. induction H as [|r z rs zs Hz _ IH]; simpl; [lia|]. destruct (floor_finite _ _ Hz).
  unfold sumZ in *. lia.
Qed.

Lemma not_inf o : is_inf (float_or_zero o) = false <-> finite (part_value o).
Proof.
  pose proof (part_nonneg o) as H. unfold part_value in *. destruct (float_or_zero o); simpl in *; tauto || intuition discriminate.
Qed.

Lemma existsb_inf l : existsb (fun o => is_inf (float_or_zero o)) l = false <-> Forall (fun o => finite (part_value o)) l.
Proof.
  induction l as [|o l IH]; simpl.
  - split; [constructor|reflexivity].
  - rewrite orb_false_iff, not_inf, IH. split.
    + intros [A B]; constructor; assumption.
    + intros H; inversion H; auto.
Qed.

Lemma go_dur_from_iff s d : go_dur_from s = Some d <->
  exists g total, duration g s /\ (places (g_seconds g) <= 9)%nat /\
    Forall (fun o => finite (part_value o)) (float_groups g) /\
    nanoseconds g total /\ total <= max_int64 /\ d = (if negative g then - total else total).
Proof.
  unfold go_dur_from. split.
  - destruct (match_duration end_strict s) as [g|] eqn:E; [|discriminate]. apply match_strict_iff in E.
    destruct (existsb _ _) eqn:Ei; [discriminate|]. apply existsb_inf in Ei.
    destruct (Z.ltb_spec max_int64 (seconds_of (g_seconds g))); [discriminate|].
    destruct (fraction_units 9 (fraction_of (g_seconds g))) as [ns|] eqn:Ef; [|discriminate].
    pose proof (fraction_units_nonneg _ _ _ Ef) as Hns. apply fraction_units_iff in Ef. destruct Ef as [Hp Hu].
    destruct (sum_ns g ns) as [total|] eqn:Es; [|discriminate]. intros H'; injection H' as <-.
    apply sum_ns_iff in Es; [|exact Hns]. destruct Es as (zs & Hzs & -> & Ht).
    exists g, (ns + seconds_of (g_seconds g) * 1000000000 + sumZ zs).
    repeat (split; [assumption|]). split; [|split; [exact Ht|reflexivity]].
    exists zs. split; [exact Hzs|]. change (10 ^ Z.of_nat 9) with 1000000000 in Hu. lia.
  - intros (g & total & Hd & Hp & Hfin & (zs & Hzs & ->) & Ht & ->).
    apply match_strict_iff in Hd. rewrite Hd. apply existsb_inf in Hfin. rewrite Hfin.
    pose proof (sum_floor_nonneg _ _ Hzs) as Hz.
    pose proof (seconds_le_total 9 (g_seconds g) ltac:(lia)) as Hs. change (10 ^ Z.of_nat 9) with 1000000000 in Hs.
    pose proof (seconds_of_nonneg (g_seconds g)) as Hs0.
    destruct (Z.ltb_spec max_int64 (seconds_of (g_seconds g))); [lia|].
    destruct (fraction_units 9 (fraction_of (g_seconds g))) as [ns|] eqn:Ef.
    + pose proof (fraction_units_nonneg _ _ _ Ef) as Hns. apply fraction_units_iff in Ef. destruct Ef as [_ Hu].
      change (10 ^ Z.of_nat 9) with 1000000000 in Hu.
      assert (Es : sum_ns g ns = Some (seconds_units 9 (g_seconds g) + sumZ zs)).
      { apply sum_ns_iff; [exact Hns|]. exists zs. split; [exact Hzs|]. lia. }
      rewrite Es. reflexivity.
    + exfalso. assert (E : fraction_units 9 (fraction_of (g_seconds g)) =
        Some (seconds_units 9 (g_seconds g) - seconds_of (g_seconds g) * 10 ^ Z.of_nat 9)).
      { apply fraction_units_iff. split; [exact Hp|lia]. }
      congruence.
Qed.

(** ** C++ *)

Lemma add_step_flag r acc : add_step r acc = 
  match acc with
  | Some (sum, false) => match add_duration sum r with Some d => Some (d, false) | None => None end
  | _ => None
  end.
Proof.
  unfold add_step, add_rep_double. destruct acc as [[sum []]|]; [| |reflexivity].
  - destruct (add_duration sum r); reflexivity.
  - destruct (add_duration sum r); reflexivity.
Qed.

Lemma cpp_chain g start : 
  match
    add_step (fmul (fmul (fmul (float_or_zero (g_years g)) c365_2425) c24) c3_6e12) (
    add_step (fmul (fmul (fmul (float_or_zero (g_months g)) c30_436875) c24) c3_6e12) (
    add_step (fmul (fmul (fmul (float_or_zero (g_weeks g)) c7) c24) c3_6e12) (
    add_step (fmul (fmul (float_or_zero (g_days g)) c24) c3_6e12) (
    add_step (fmul (float_or_zero (g_hours g)) c3_6e12) (
    add_step (fmul (float_or_zero (g_minutes g)) c6e10) (Some (start, false)))))))
  with None => None | Some (sum, _) => Some sum end = add_list start (nanosecond_products g).
Proof.
  unfold nanosecond_products, part_value. cbn [add_list]. rewrite !add_step_flag.
  repeat match goal with |- context [bindo (add_duration ?a ?b) _] =>
    destruct (add_duration a b); cbn [bindo]; [|reflexivity] end; reflexivity.
Qed.

Lemma existsb_stod l : existsb stod_throws l = false <-> Forall (fun o => stod_throws o = false) l.
Proof.
  induction l as [|o l IH]; simpl.
  - split; [constructor|reflexivity].
  - rewrite orb_false_iff, IH. split.
    + intros [A B]; constructor; assumption.
    + intros H; inversion H; auto.
Qed.

Lemma cpp_dur_from_iff s d : cpp_dur_from false s = CppOk d <->
  exists g total, duration g s /\ (places (g_seconds g) <= 9)%nat /\
    Forall (fun o => stod_throws o = false) (float_groups g) /\
    nanoseconds g total /\ total <= max_int64 /\ d = (if negative g then - total else total).
Proof.
  unfold cpp_dur_from. split.
  - destruct (match_duration end_strict s) as [g|] eqn:E; [|discriminate]. apply match_strict_iff in E.
    destruct (fraction_units 9 (fraction_of (g_seconds g))) as [ns|] eqn:Ef; [|discriminate].
    pose proof (fraction_units_nonneg _ _ _ Ef) as Hns. apply fraction_units_iff in Ef. destruct Ef as [Hp Hu].
    change (10 ^ Z.of_nat 9) with 1000000000 in Hu. pose proof (seconds_of_nonneg (g_seconds g)) as Hs0.
    destruct (existsb stod_throws (float_groups g)) eqn:Ei; [discriminate|]. apply existsb_stod in Ei.
    destruct (Z.ltb_spec max_int64 (seconds_of (g_seconds g))); [discriminate|].
    destruct (Z.ltb_spec (max_int64 / 1000000000) (seconds_of (g_seconds g))); [discriminate|].
    destruct (Z.ltb_spec (max_int64 - seconds_of (g_seconds g) * 1000000000) ns); [discriminate|].
    pose proof (cpp_chain g (ns + seconds_of (g_seconds g) * 1000000000)) as C.
    cbv zeta.
    destruct (add_step _ _) as [[sum fl]|]; [|discriminate]. intros H'; injection H' as <-.
    symmetry in C. apply add_list_iff in C; [|lia|apply products_nonneg]. destruct C as (zs & Hzs & -> & Ht).
    eexists g, _. repeat (split; [eassumption|]). split; [|split; [exact Ht|reflexivity]].
    exists zs. split; [exact Hzs|]. lia.
  - intros (g & total & Hd & Hp & Hfin & (zs & Hzs & ->) & Ht & ->).
    apply match_strict_iff in Hd. rewrite Hd. apply existsb_stod in Hfin. rewrite Hfin.
    pose proof (sum_floor_nonneg _ _ Hzs) as Hz.
    pose proof (seconds_le_total 9 (g_seconds g) ltac:(lia)) as Hs. change (10 ^ Z.of_nat 9) with 1000000000 in Hs.
    pose proof (seconds_of_nonneg (g_seconds g)) as Hs0.
    destruct (fraction_units 9 (fraction_of (g_seconds g))) as [ns|] eqn:Ef.
    + pose proof (fraction_units_nonneg _ _ _ Ef) as Hns. apply fraction_units_iff in Ef. destruct Ef as [_ Hu].
      change (10 ^ Z.of_nat 9) with 1000000000 in Hu.
      destruct (Z.ltb_spec max_int64 (seconds_of (g_seconds g))); [lia|].
      destruct (Z.ltb_spec (max_int64 / 1000000000) (seconds_of (g_seconds g))).
      { exfalso. assert (seconds_of (g_seconds g) <= max_int64 / 1000000000) by (apply Z.div_le_lower_bound; lia). lia. }
      destruct (Z.ltb_spec (max_int64 - seconds_of (g_seconds g) * 1000000000) ns); [lia|].
      pose proof (cpp_chain g (ns + seconds_of (g_seconds g) * 1000000000)) as C. cbv zeta.
      assert (E : add_list (ns + seconds_of (g_seconds g) * 1000000000) (nanosecond_products g)
                  = Some (seconds_units 9 (g_seconds g) + sumZ zs)).
      { apply add_list_iff; [lia|apply products_nonneg|]. exists zs. split; [exact Hzs|]. lia. }
      rewrite E in C. destruct (add_step _ _) as [[sum fl]|]; [|discriminate]. injection C as ->. reflexivity.
    + exfalso. assert (E : fraction_units 9 (fraction_of (g_seconds g)) =
        Some (seconds_units 9 (g_seconds g) - seconds_of (g_seconds g) * 10 ^ Z.of_nat 9)).
      { apply fraction_units_iff. split; [exact Hp|lia]. }
      congruence.
Qed.

Lemma add_step_true r acc : (forall sum, acc <> Some (sum, false)) -> add_step r acc = None.
Proof.
  intros H. rewrite add_step_flag. destruct acc as [[sum []]|]; try reflexivity. exfalso. exact (H sum eq_refl).
Qed.

Lemma cpp_dur_from_true s d : cpp_dur_from true s <> CppOk d.
Proof.
  unfold cpp_dur_from. destruct (match_duration end_strict s) as [g|]; [|discriminate].
  destruct (fraction_units _ _); [|discriminate]. destruct (existsb _ _); [discriminate|].
  destruct (Z.ltb _ _); [discriminate|]. destruct (Z.ltb _ _); [discriminate|]. destruct (Z.ltb _ _); [discriminate|].
  rewrite (add_step_true (fmul (float_or_zero (g_minutes g)) c6e10)) by discriminate.
  rewrite !add_step_true by discriminate. discriminate.
Qed.

(** ** Integral parts *)

(** Exact below 2^53; otherwise at least 2^53. *)
Definition approx (f : spec_float) (n : Z) : Prop :=
  (fval f n /\ n < 2 ^ 53) \/ (2 ^ 53 <= n /\ fbig 53 f).
Definition approx63 (f : spec_float) (n : Z) : Prop :=
  (fval f n /\ n < 2 ^ 63) \/ (2 ^ 63 <= n /\ fbig 63 f).

Lemma integral_nonneg o n : integral o n -> 0 <= n.
Proof. destruct o as [[ds fs]|]; simpl; lia. Qed.

Lemma part_approx o n : integral o n -> approx (float_or_zero o) n.
Proof.
  destruct o as [[ds fs]|]; simpl integral.
  - intros [-> ->]. unfold float_or_zero, float_of_number. change (10 ^ N.of_nat 0)%N with 1%N.
    destruct (num_of ds) as [|p]; [left; split; [reflexivity|lia]|]. change (1 =? 1)%positive with true. cbv iota.
    change (Z.of_N (Npos p)) with (Zpos p).
    destruct (Z_lt_le_dec (Zpos p) (2 ^ 53)) as [H|H].
    + left. split; [apply fval_small; exact H|exact H].
    + right. split; [exact H|]. apply binary_round_big; [lia|]. destruct (digits2_bound p) as [B _].
      rewrite Z.add_0_r. apply (Z.pow_lt_mono_r_iff 2); lia.
  - intros ->. left. split; [reflexivity|lia].
Qed.

Lemma approx_nonneg f n : approx f n -> 0 <= n /\ fnonneg f.
Proof.
  intros [[H _]|[H H']].
  - split; [exact (fval_nonneg _ _ H)|exact (proj2 (fval_finite _ _ H))].
  - split; [lia|exact (fbig_nonneg _ _ H')].
Qed.

Lemma approx_mul f n c k : approx f n -> fval c k -> 1 <= k -> approx (fmul f c) (n * k).
Proof.
  intros H Hc Hk. assert (Hc0 : fbig 0 c) by (apply (fval_fbig 0 c k); [lia|exact Hc|change (2 ^ 0) with 1; lia]).
  destruct H as [[Hf Hn]|[Hn Hf]].
  - destruct (Z_lt_le_dec (n * k) (2 ^ 53)).
    + left. split; [|assumption]. apply (fmul_int f c n k (n * k) 0); try assumption; [change (2 ^ 0) with 1; lia|lia].
    + right. split; [assumption|]. apply (fmul_fbig 53 f c n k); try assumption. lia.
  - right. split; [nia|]. replace 53 with (53 + 0) by lia. apply fmul_big; try assumption; lia.
Qed.

Lemma approx_mul63 f n c k j : approx f n -> fval c (k * 2 ^ j) -> 10 <= j <= 900 -> 1 <= k ->
  approx63 (fmul f c) (n * (k * 2 ^ j)).
Proof.
  intros H Hc Hj Hk. pose proof (pow2_pos j ltac:(lia)) as P.
  assert (Hp10 : 2 ^ 10 <= 2 ^ j) by (apply Z.pow_le_mono_r; lia).
  assert (Hkj : 2 ^ 10 <= k * 2 ^ j) by nia.
  assert (Hc10 : fbig 10 c) by (apply (fval_fbig 10 c (k * 2 ^ j)); [lia|exact Hc|exact Hkj]).
  destruct H as [[Hf Hn]|[Hn Hf]].
  - destruct (Z_lt_le_dec (n * (k * 2 ^ j)) (2 ^ 63)).
    + left. split; [|assumption]. pose proof (fval_nonneg _ _ Hf).
      apply (fmul_int f c n (k * 2 ^ j) (n * k) j); [exact Hf|exact Hc|ring| |lia].
      change (2 ^ 63) with (2 ^ 53 * 2 ^ 10) in *.
      assert (n * k * 2 ^ 10 <= n * k * 2 ^ j) by (apply Z.mul_le_mono_nonneg_l; nia).
      lia.
    + right. split; [assumption|]. apply (fmul_fbig 63 f c n (k * 2 ^ j)); try assumption. lia.
  - right. split.
    + change (2 ^ 63) with (2 ^ 53 * 2 ^ 10). apply Z.mul_le_mono_nonneg; lia.
    + change 63 with (53 + 10). apply fmul_big; try assumption; lia.
Qed.

Lemma approx63_floor f n z : approx63 f n -> floor_is f z -> z = n \/ (2 ^ 63 <= n /\ 2 ^ 63 <= z).
Proof.
  intros [[H _]|[H H']] Hz.
  - left. apply (floor_unique f); [exact Hz|apply fval_floor; exact H].
  - right. split; [exact H|]. apply (fbig_floor 63 f); [lia|exact H'|exact Hz].
Qed.

(** The exact nanoseconds of a text without fractions, years and months. *)
Definition exact_ns (w d h mi : Z) (o : option number) : Z :=
  seconds_units 9 o + (mi * 60 + h * 3600 + d * 86400 + w * 604800) * 1000000000.

Lemma mul_assoc3 a b c : a * (b * c) = a * b * c. Proof. ring. Qed.

Lemma integral_products g w d h mi :
  g_years g = None -> g_months g = None -> integral (g_weeks g) w -> integral (g_days g) d ->
  integral (g_hours g) h -> integral (g_minutes g) mi ->
  Forall2 approx63 (nanosecond_products g)
    [mi * 60000000000; h * 3600000000000; d * 24 * 3600000000000; w * 7 * 24 * 3600000000000; 0; 0].
Proof.
  intros Hy Hmo Hw Hd Hh Hmi.
  assert (V6 : fval c6e10 (29296875 * 2 ^ 11)) by (vm_compute; reflexivity).
  assert (V36 : fval c3_6e12 (439453125 * 2 ^ 13)) by (vm_compute; reflexivity).
  assert (V24 : fval c24 24) by (vm_compute; reflexivity).
  assert (V7 : fval c7 7) by (vm_compute; reflexivity).
  unfold nanosecond_products, part_value. rewrite Hy, Hmo.
  change 60000000000 with (29296875 * 2 ^ 11). change 3600000000000 with (439453125 * 2 ^ 13).
  constructor; [apply approx_mul63; [apply part_approx; exact Hmi|exact V6|lia|lia]|].
  constructor; [apply approx_mul63; [apply part_approx; exact Hh|exact V36|lia|lia]|].
  constructor.
  { apply approx_mul63; [|exact V36|lia|lia]. apply approx_mul; [|exact V24|lia]. apply part_approx. exact Hd. }
  constructor.
  { apply approx_mul63; [|exact V36|lia|lia]. apply approx_mul; [|exact V24|lia]. apply approx_mul; [|exact V7|lia].
    apply part_approx. exact Hw. }
  constructor; [left; split; [vm_compute; reflexivity|lia]|].
  constructor; [left; split; [vm_compute; reflexivity|lia]|]. constructor.
Qed.

Lemma approx63_sum fs ns : Forall2 approx63 fs ns -> (forall n, In n ns -> 0 <= n) ->
  forall zs, Forall2 floor_is fs zs -> sumZ zs = sumZ ns \/ (2 ^ 63 <= sumZ zs /\ 2 ^ 63 <= sumZ ns).
Proof.
  intros H. induction H as [|f n fs ns Hf _ IH]; intros Hn zs Hzs; inversion Hzs as [|? z ? zs' Hz Hzs']; subst.
  - left. reflexivity.
  - simpl. specialize (IH (fun n' H => Hn n' (or_intror H)) zs' Hzs').
    pose proof (approx63_floor _ _ _ Hf Hz) as C. pose proof (Hn n (or_introl eq_refl)).
    assert (0 <= z) by (destruct (floor_finite _ _ Hz); assumption).
    pose proof (sum_floor_nonneg _ _ Hzs') as Hs.
    assert (0 <= sumZ ns).
    { clear - Hn. induction ns as [|a l IH]; simpl; [lia|].
      pose proof (Hn a (or_intror (or_introl eq_refl))).
      assert (0 <= sumZ l) by (apply IH; intros x [E|Hx]; apply Hn; [left; exact E|right; right; exact Hx]).
      unfold sumZ in *. lia. }
    unfold sumZ in *. lia.
Qed.

Lemma nanoseconds_exact g w d h mi total :
  g_years g = None -> g_months g = None -> integral (g_weeks g) w -> integral (g_days g) d ->
  integral (g_hours g) h -> integral (g_minutes g) mi ->
  nanoseconds g total -> total <= max_int64 -> total = exact_ns w d h mi (g_seconds g).
Proof.
  intros Hy Hmo Hw Hd Hh Hmi (zs & Hzs & ->) Ht.
  pose proof (integral_products g w d h mi Hy Hmo Hw Hd Hh Hmi) as A.
  apply integral_nonneg in Hw, Hd, Hh, Hmi.
  destruct (approx63_sum _ _ A) with (zs := zs) as [E|[E1 E2]]; [|exact Hzs| |].
  - simpl. intros n Hn. intuition lia.
  - unfold exact_ns. rewrite E. simpl. unfold sumZ. simpl. lia.
  - exfalso. pose proof (seconds_le_total 9 (g_seconds g) ltac:(lia)).
    pose proof (seconds_of_nonneg (g_seconds g)). change (10 ^ Z.of_nat 9) with 1000000000 in *.
    unfold max_int64 in *. lia.
Qed.

Lemma exact_nanoseconds g w d h mi :
  g_years g = None -> g_months g = None -> integral (g_weeks g) w -> integral (g_days g) d ->
  integral (g_hours g) h -> integral (g_minutes g) mi ->
  exact_ns w d h mi (g_seconds g) <= max_int64 -> nanoseconds g (exact_ns w d h mi (g_seconds g)).
Proof.
  intros Hy Hmo Hw Hd Hh Hmi Ht.
  pose proof (integral_products g w d h mi Hy Hmo Hw Hd Hh Hmi) as A.
  apply integral_nonneg in Hw, Hd, Hh, Hmi.
  assert (Hs : 0 <= seconds_units 9 (g_seconds g)).
  { pose proof (seconds_le_total 9 (g_seconds g) ltac:(lia)).
    pose proof (seconds_of_nonneg (g_seconds g)). change (10 ^ Z.of_nat 9) with 1000000000 in *. lia. }
  unfold exact_ns, max_int64 in *.
  exists [mi * 60000000000; h * 3600000000000; d * 24 * 3600000000000; w * 7 * 24 * 3600000000000; 0; 0].
  split; [|simpl; unfold sumZ; simpl; lia].
  assert (F : forall f n, approx63 f n -> n < 2 ^ 63 -> floor_is f n).
  { intros f n [[H _]|[H _]] Hn; [apply fval_floor; exact H|lia]. }
  inversion_clear A as [|? ? ? ? A1 A']. inversion_clear A' as [|? ? ? ? A2 A'']. inversion_clear A'' as [|? ? ? ? A3 A4].
  inversion_clear A4 as [|? ? ? ? A5 A6]. inversion_clear A6 as [|? ? ? ? A7 A8]. inversion_clear A8 as [|? ? ? ? A9 _].
  repeat apply Forall2_cons; try apply Forall2_nil; (apply F; [assumption|lia]).
Qed.

(** Finite parts when the sum is small. *)
Lemma approx_small_finite o n : integral o n -> n < 2 ^ 53 -> finite (part_value o) /\ stod_throws o = false.
Proof.
  intros H Hn. destruct (part_approx o n H) as [[Hv _]|[Hb _]]; [|lia].
  split; [exact (proj1 (fval_finite _ _ Hv))|].
  destruct o as [[ds fs]|]; [|reflexivity]. simpl in H. destruct H as [-> ->].
  unfold stod_throws. unfold float_or_zero in Hv. unfold float_of_number in *.
  change (10 ^ N.of_nat 0)%N with 1%N in *. destruct (num_of ds) as [|p] eqn:E; [reflexivity|].
  change (1 =? 1)%positive with true in *. cbv iota in *.
  change (Z.of_N (Npos p)) with (Zpos p) in *.
  assert (Hd : Zpos (digits2_pos p) <= 53) by (apply digits2_small; exact Hn).
  unfold binary_normalize, binary_round in *. rewrite Z.add_0_r in *.
  assert (Hf : fexp 53 1024 (Zpos (digits2_pos p)) = Zpos (digits2_pos p) - 53) by (unfold fexp, emin; lia).
  rewrite Hf in *. unfold shl_align in *. rewrite Z.sub_0_r in *.
  assert (K : forall m e, Zpos (digits2_pos m) = 53 -> e = Zpos (digits2_pos p) - 53 ->
     match binary_round_aux 53 1024 false (Zpos m) e loc_Exact with
     | S754_zero _ => negb (Npos p =? 0)%N | S754_finite _ m0 _ => Zpos m0 <? 2 ^ 52 | _ => true end = false).
  { intros m e Hm ->. rewrite round_aux_exact; [|rewrite Hm; unfold fexp, emin; lia|lia].
    apply Z.ltb_ge. destruct (digits2_bound m) as [_ B]. rewrite Hm in B. exact B. }
  destruct (Zpos (digits2_pos p) - 53) as [|x|x] eqn:Ex; [|lia|].
  - apply (K p 0); lia.
  - apply (K (shift_pos x p) (Zneg x)); [rewrite digits2_shift; lia|reflexivity].
Qed.

Lemma exact_ns_parts w d h mi o : 0 <= w -> 0 <= d -> 0 <= h -> 0 <= mi ->
  exact_ns w d h mi o <= max_int64 -> w < 2 ^ 53 /\ d < 2 ^ 53 /\ h < 2 ^ 53 /\ mi < 2 ^ 53.
Proof.
  intros ? ? ? ? H. pose proof (seconds_le_total 9 o ltac:(lia)).
  pose proof (seconds_of_nonneg o). change (10 ^ Z.of_nat 9) with 1000000000 in *.
  unfold exact_ns, max_int64 in *. lia.
Qed.

Lemma integral_finite g w d h mi :
  g_years g = None -> g_months g = None -> integral (g_weeks g) w -> integral (g_days g) d ->
  integral (g_hours g) h -> integral (g_minutes g) mi ->
  exact_ns w d h mi (g_seconds g) <= max_int64 ->
  Forall (fun o => finite (part_value o)) (float_groups g) /\
  Forall (fun o => stod_throws o = false) (float_groups g).
Proof.
  intros Hy Hmo Hw Hd Hh Hmi Ht.
  destruct (exact_ns_parts w d h mi (g_seconds g)) as (Bw & Bd & Bh & Bmi);
    [eapply integral_nonneg; eassumption..|exact Ht|].
  unfold float_groups. rewrite Hy, Hmo.
  split; repeat apply Forall_cons; try apply Forall_nil; try exact I; try reflexivity;
    eapply approx_small_finite; eassumption.
Qed.

Lemma go_exact g s w d h mi : duration g s -> (places (g_seconds g) <= 9)%nat ->
  g_years g = None -> g_months g = None -> integral (g_weeks g) w -> integral (g_days g) d ->
  integral (g_hours g) h -> integral (g_minutes g) mi ->
  go_dur_from s = (let total := exact_ns w d h mi (g_seconds g) in
                   if total <=? max_int64 then Some (if negative g then - total else total) else None).
Proof.
  intros Hs Hp Hy Hmo Hw Hd Hh Hmi. cbv zeta. destruct (Z.leb_spec (exact_ns w d h mi (g_seconds g)) max_int64) as [H|H].
  - apply go_dur_from_iff. exists g, (exact_ns w d h mi (g_seconds g)).
    destruct (integral_finite g w d h mi) as [F _]; try assumption.
    repeat (split; [assumption|]). split; [apply exact_nanoseconds; assumption|]. split; [exact H|reflexivity].
  - destruct (go_dur_from s) as [r|] eqn:E; [|reflexivity]. exfalso.
    apply go_dur_from_iff in E. destruct E as (g' & total & Hs' & _ & _ & Hn & Ht & _).
    rewrite (duration_unique g' g s Hs' Hs) in *.
    pose proof (nanoseconds_exact g w d h mi total Hy Hmo Hw Hd Hh Hmi Hn Ht). lia.
Qed.

Lemma cpp_exact g s w d h mi : duration g s -> (places (g_seconds g) <= 9)%nat ->
  g_years g = None -> g_months g = None -> integral (g_weeks g) w -> integral (g_days g) d ->
  integral (g_hours g) h -> integral (g_minutes g) mi ->
  forall r, cpp_dur_from false s = CppOk r <->
    exact_ns w d h mi (g_seconds g) <= max_int64 /\
    r = (if negative g then - exact_ns w d h mi (g_seconds g) else exact_ns w d h mi (g_seconds g)).
Proof.
  intros Hs Hp Hy Hmo Hw Hd Hh Hmi r. split.
  - intros E. apply cpp_dur_from_iff in E. destruct E as (g' & total & Hs' & _ & _ & Hn & Ht & ->).
    rewrite (duration_unique g' g s Hs' Hs) in *.
    pose proof (nanoseconds_exact g w d h mi total Hy Hmo Hw Hd Hh Hmi Hn Ht). subst total. split; [exact Ht|reflexivity].
  - intros [H ->]. apply cpp_dur_from_iff. exists g, (exact_ns w d h mi (g_seconds g)).
    destruct (integral_finite g w d h mi) as [_ F]; try assumption.
    repeat (split; [assumption|]). split; [apply exact_nanoseconds; assumption|]. split; [exact H|reflexivity].
Qed.
