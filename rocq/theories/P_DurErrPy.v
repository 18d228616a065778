(** The error of the Python duration parser. *)
From Verif Require Import Base M_Dec M_Schema M_Duration S_Duration S_DurValue P_Float P_DurFloat P_DurRound P_Duration P_DurSum P_DurText P_DurPrint P_FloatErr P_DurErr.
From Coq Require Import String List NArith ZArith Bool Lia Floats.SpecFloat Zpower QArith Qpower Lqa.
Import ListNotations.
Open Scope Z_scope.

Lemma small_rounded f x : rounded f x -> (0 <= x)%Q -> (x <= 36893488147419103232)%Q ->
  fnonneg f /\ finite f /\ (x - (x * (1 # 9007199254740992) + tiny) <= val f)%Q /\ (val f <= x + (x * (1 # 9007199254740992) + tiny))%Q.
Proof.
  intros (N & [(F & R1 & R2)|(_ & B)]) Hx Hb.
  - unfold roundoff in *. rewrite eps_value in *. fold tiny in R1, R2. repeat split; try assumption; lra.
  - exfalso. assert (pow2 100 <= pow2 900)%Q by (apply pow2_le; lia). assert (36893488147419103232 < pow2 100)%Q by (vm_compute; reflexivity). lra.
Qed.

Lemma modf_near f : fnonneg f -> finite f -> exists i r, modf f = Some (i, r) /\ fnonneg r /\ finite r /\
  (val r <= 1 + (1 # 4503599627370496))%Q /\
  (val f - (1 # 4503599627370496) <= inject_Z i + val r)%Q /\ (inject_Z i + val r <= val f + (1 # 4503599627370496))%Q.
Proof.
  intros N F. assert (T := tiny_pos). assert (TS := tiny_small). destruct f as [s| | |s m e]; try contradiction; cbn in N.
  - exists 0, (S754_zero s). repeat split; try exact I; vm_compute; discriminate.
  - subst s. unfold modf. destruct (Z.leb_spec 0 e).
    + eexists _, _. split; [reflexivity|]. cbn [val]. split; [exact I|]. split; [exact I|]. rewrite inject_Z_mult, <- pow2_Z by assumption. split; [vm_compute; discriminate|]. split; lra.
    + set (d := 2 ^ (- e)). assert (Hd : 0 < d) by (apply Z.pow_pos_nonneg; lia). assert (B := Z.mod_pos_bound (Zpos m) d Hd). assert (D := Z.div_mod (Zpos m) d ltac:(lia)).
      eexists _, _. split; [reflexivity|]. set (r := binary_normalize 53 1024 (Zpos m mod d) e false).
      set (x := (inject_Z (Zpos m mod d) * pow2 e)%Q).
      assert (R : rounded r x).
      { unfold r, x, binary_normalize. destruct (Zpos m mod d) as [|p|p]; [eapply rounded_eq; [|now apply rounded_zero]; change (inject_Z 0) with 0%Q; ring|apply binary_round_rounded|lia]. }
      assert (Ed : (inject_Z d * pow2 e == 1)%Q). { unfold d. rewrite <- pow2_Z by lia. apply pow2_opp. }
      assert (X0 : (0 <= x)%Q) by (apply Qmult_le_0_compat; [apply (inject_le 0); lia|apply Qlt_le_weak, pow2_gt0]).
      assert (X1 : (x <= 1)%Q). { rewrite <- Ed. apply Qmult_le_compat_r; [apply inject_le; lia|apply Qlt_le_weak, pow2_gt0]. }
      assert (V : (val (S754_finite false m e) == inject_Z (Zpos m / d) + x)%Q).
      { cbn [val]. rewrite D at 1. rewrite inject_Z_plus, inject_Z_mult, Qmult_plus_distr_l. fold x. setoid_replace (inject_Z d * inject_Z (Zpos m / d) * pow2 e)%Q with (inject_Z (Zpos m / d) * (inject_Z d * pow2 e))%Q by ring. rewrite Ed. ring. }
      destruct (small_rounded r x R X0 ltac:(lra)) as (Nr & Fr & R1 & R2). split; [exact Nr|]. split; [exact Fr|]. rewrite V.
      split; [lra|]. split; lra.
Qed.

(** One argument of timedelta. *)
Lemma accum_near c x s l : factor_ok c -> c <= us_per_day -> (val (binary_normalize 53 1024 c 0 false) == inject_Z c)%Q ->
  fnonneg x -> finite x -> fnonneg l -> finite l -> (val l <= 4)%Q ->
  exists s' l', accum c x (s, l) = Some (s', l') /\ fnonneg l' /\ finite l' /\ (val l' <= val l + (11 # 10))%Q /\
    (inject_Z s + val l + val x * inject_Z c - (1 # 10000) <= inject_Z s' + val l')%Q /\
    (inject_Z s' + val l' <= inject_Z s + val l + val x * inject_Z c + (1 # 10000))%Q.
Proof.
  intros (C0 & CN & CF & CZ) C1 CV Nx Fx Nl Fl Hl. assert (T := tiny_pos). assert (TS := tiny_small). unfold accum.
  destruct (modf_near x Nx Fx) as (i & f & -> & Nf & Ff & Vf & M1 & M2). assert (V0 := val_nonneg f Nf). assert (L0 := val_nonneg l Nl).
  assert (Qc : (0 < inject_Z c)%Q) by (apply (inject_lt 0); exact C0). assert (Qc1 : (inject_Z c <= 86400000000)%Q) by (apply (inject_le c 86400000000); exact C1).
  assert (S1 : (val x * inject_Z c - (1 # 4503599627370496) * inject_Z c <= (inject_Z i + val f) * inject_Z c)%Q).
  { setoid_replace (val x * inject_Z c - (1 # 4503599627370496) * inject_Z c)%Q with ((val x - (1 # 4503599627370496)) * inject_Z c)%Q by ring. apply Qmult_le_compat_r; lra. }
  assert (S2 : ((inject_Z i + val f) * inject_Z c <= val x * inject_Z c + (1 # 4503599627370496) * inject_Z c)%Q).
  { setoid_replace (val x * inject_Z c + (1 # 4503599627370496) * inject_Z c)%Q with ((val x + (1 # 4503599627370496)) * inject_Z c)%Q by ring. apply Qmult_le_compat_r; lra. }
  rewrite Qmult_plus_distr_l in S1, S2.
  destruct (is_zero f) eqn:Zf.
  - exists (s + i * c), l. split; [reflexivity|]. split; [exact Nl|]. split; [exact Fl|]. rewrite inject_Z_plus, inject_Z_mult.
    assert (E : (val f == 0)%Q) by (destruct f; try discriminate; reflexivity). rewrite E in *. split; [lra|]. split; lra.
  - set (cf := binary_normalize 53 1024 c 0 false) in *. assert (P0 : (0 <= inject_Z c * val f)%Q) by (apply Qmult_le_0_compat; lra).
    assert (P1 : (inject_Z c * val f <= inject_Z c * (1 + (1 # 4503599627370496)))%Q) by (rewrite !(Qmult_comm (inject_Z c)); apply Qmult_le_compat_r; lra).
    destruct (small_rounded (fmul cf f) (inject_Z c * val f)) as (Np & Fp & R1 & R2); [eapply rounded_eq; [|apply fmul_rounded; assumption]; now rewrite CV|exact P0|lra|].
    destruct (modf_near _ Np Fp) as (j & r & -> & Nr & Fr & Vr & M3 & M4). assert (Vr0 := val_nonneg r Nr).
    destruct (small_rounded (fadd l r) (val l + val r)) as (Na & Fa & R3 & R4); [apply fadd_rounded; assumption|lra|lra|].
    exists (s + i * c + j), (fadd l r). split; [reflexivity|]. split; [exact Na|]. split; [exact Fa|]. rewrite !inject_Z_plus, inject_Z_mult.
    split; [lra|]. split; lra.
Qed.

Lemma round_leftover_near sum l : fnonneg l -> finite l ->
  (inject_Z sum + val l - (1 # 2) <= inject_Z (round_leftover sum l))%Q /\ (inject_Z (round_leftover sum l) <= inject_Z sum + val l + (1 # 2))%Q.
Proof.
  intros N F. destruct l as [s| | |s m e]; try contradiction; cbn in N; [cbn [round_leftover val]; lra|]. subst s. unfold round_leftover. cbn [val].
  destruct (Z.leb_spec 0 e).
  - rewrite inject_Z_plus, inject_Z_mult, <- pow2_Z by assumption. lra.
  - set (d := 2 ^ (- e)). assert (Hd : 0 < d) by (apply Z.pow_pos_nonneg; lia). assert (B := Z.mod_pos_bound (Zpos m) d Hd). assert (D := Z.div_mod (Zpos m) d ltac:(lia)).
    assert (Ed : (inject_Z d * pow2 e == 1)%Q). { unfold d. rewrite <- pow2_Z by lia. apply pow2_opp. }
    set (x := (inject_Z (Zpos m mod d) * pow2 e)%Q).
    assert (V : (inject_Z (Zpos m) * pow2 e == inject_Z (Zpos m / d) + x)%Q).
    { rewrite D at 1. rewrite inject_Z_plus, inject_Z_mult, Qmult_plus_distr_l. fold x. setoid_replace (inject_Z d * inject_Z (Zpos m / d) * pow2 e)%Q with (inject_Z (Zpos m / d) * (inject_Z d * pow2 e))%Q by ring. rewrite Ed. ring. }
    assert (P := pow2_gt0 e).
    assert (X0 : (0 <= x)%Q) by (apply Qmult_le_0_compat; [apply (inject_le 0); lia|lra]).
    assert (X1 : (x <= 1)%Q). { rewrite <- Ed. apply Qmult_le_compat_r; [apply inject_le; lia|lra]. }
    assert (X2 : 2 * (Zpos m mod d) <= d -> (x <= 1 # 2)%Q).
    { intros Hm. assert (2 * x <= 1)%Q; [|lra]. rewrite <- Ed. setoid_replace (2 * x)%Q with (inject_Z (2 * (Zpos m mod d)) * pow2 e)%Q by (unfold x; rewrite inject_Z_mult; ring). apply Qmult_le_compat_r; [now apply inject_le|lra]. }
    assert (X3 : d <= 2 * (Zpos m mod d) -> (1 # 2 <= x)%Q).
    { intros Hm. assert (1 <= 2 * x)%Q; [|lra]. rewrite <- Ed. setoid_replace (2 * x)%Q with (inject_Z (2 * (Zpos m mod d)) * pow2 e)%Q by (unfold x; rewrite inject_Z_mult; ring). apply Qmult_le_compat_r; [now apply inject_le|lra]. }
    rewrite V. destruct (Z.compare_spec (2 * (Zpos m mod d)) d) as [E|L|G].
    + specialize (X2 ltac:(lia)). specialize (X3 ltac:(lia)). destruct (Z.even _); rewrite !inject_Z_plus; change (inject_Z 1) with 1%Q; split; lra.
    + specialize (X2 ltac:(lia)). rewrite inject_Z_plus. split; lra.
    + specialize (X3 ltac:(lia)). rewrite !inject_Z_plus. change (inject_Z 1) with 1%Q. split; lra.
Qed.

(** * Sums *)
Lemma near_k k k' a x y : (k <= k')%Q -> (0 <= y)%Q -> near k a x y -> near k' a x y.
Proof.
  intros K Hy (N1 & N2). assert (k * eta * y <= k' * eta * y)%Q by (apply Qmult_le_compat_r; [|exact Hy]; apply Qmult_le_compat_r; [exact K|discriminate]).
  split; lra.
Qed.

Lemma add_step f f' k a y y' : fnonneg f -> finite f -> fnonneg f' -> finite f' -> finite (fadd f f') ->
  (0 <= k)%Q -> (k <= 10)%Q -> (tiny <= a)%Q -> (0 <= y)%Q -> (0 <= y')%Q -> near k a (val f) y -> near k a (val f') y' ->
  near (k + 1) (8 * a) (val (fadd f f')) (y + y').
Proof.
  intros N F N' F' FF K0 K Ha Hy Hy' (A1 & A2) (B1 & B2). assert (T := tiny_pos). destruct (fadd_rounded f f' N F N' F') as (_ & [(_ & R1 & R2)|(E & _)]); [|rewrite E in FF; contradiction].
  assert (V := val_nonneg f N). assert (V' := val_nonneg f' N').
  assert (S : near k (a + a) (val f + val f') (y + y')).
  { unfold near. assert (E : (k * eta * (y + y') == k * eta * y + k * eta * y')%Q) by ring. rewrite E. split; lra. }
  eapply near_weaken; [|apply (near_move k (a + a) (val f + val f') (y + y')); try assumption; lra]. lra.
Qed.

Lemma fadd_finite a b : fnonneg a -> fnonneg b -> finite (fadd a b) -> finite a /\ finite b.
Proof.
  intros Na Nb H. destruct a; try contradiction; destruct b; try contradiction; split; try exact I; cbn in Na, Nb; subst; cbn in H; contradiction.
Qed.

Definition py_days (g : groups) : spec_float :=
  fadd (fadd (fadd (fmul (part_value (g_years g)) c365_2425) (fmul (part_value (g_months g)) c30_436875)) (fmul (part_value (g_weeks g)) c7)) (part_value (g_days g)).
Definition days_meant (g : groups) : Q :=
  (amount (g_years g) * days_per_year + amount (g_months g) * days_per_month + amount (g_weeks g) * 7 + amount (g_days g))%Q.

Lemma part_nonneg' o : fnonneg (part_value o).
Proof. apply part_rounded. Qed.

Lemma factor_mul_nonneg f c q : fnonneg f -> factor c q -> fnonneg (fmul f c).
Proof. intros Nf (Nc & Fc & Zc & _). now apply fmul_nonneg. Qed.

Lemma amount_factor o c q : factor c q -> (0 <= amount o * q)%Q.
Proof. intros (_ & _ & _ & H & _). apply Qmult_le_0_compat; [apply amount_nonneg|exact H]. Qed.

Lemma py_days_nonneg g : fnonneg (py_days g).
Proof.
  unfold py_days. repeat apply fadd_nonneg; try apply part_nonneg'; eapply factor_mul_nonneg; try apply part_nonneg'; [apply factor_year|apply factor_month|apply factor_7].
Qed.

Lemma product_near o c q : factor c q -> finite (fmul (part_value o) c) -> near 3 b1 (val (fmul (part_value o) c)) (amount o * q).
Proof.
  intros Hc Ff. assert (Fo : finite (part_value o)). { destruct Hc as (Nc & Fc & Zc & _). apply (fmul_finite _ c); try assumption. apply part_nonneg'. }
  destruct b_bounds as (B0 & _). exact (mul_step _ _ _ 1 b0 _ (part_nonneg' o) Hc Ff ltac:(lra) ltac:(lra) B0 (amount_nonneg o) (part_near o Fo)).
Qed.

Lemma product_finite o c q : factor c q -> (amount o * q <= 36893488147419103232)%Q -> (1 <= q)%Q -> finite (fmul (part_value o) c).
Proof.
  intros Hc Hq H1. assert (T := tiny_pos). assert (TS := tiny_small). assert (A := amount_nonneg o). assert (F : finite (part_value o)).
  { apply part_finite_ns. apply Qle_trans with (amount o * q)%Q; [|exact Hq]. setoid_replace (amount o) with (1 * amount o)%Q at 1 by ring. rewrite (Qmult_comm (amount o)). apply Qmult_le_compat_r; assumption. }
  apply (mul_finite _ _ q 1 tiny (amount o)); try assumption; try lra; [apply part_nonneg'|now apply part_near].
Qed.

Lemma py_days_near g : finite (py_days g) -> near 6 b2 (val (py_days g)) (days_meant g).
Proof.
  intros H. unfold py_days, days_meant in *. destruct b_bounds as (B0 & B1 & B2 & B3 & C0 & C1 & C2 & C3). assert (T := tiny_pos).
  assert (Ny := factor_mul_nonneg _ _ _ (part_nonneg' (g_years g)) factor_year). assert (Nm := factor_mul_nonneg _ _ _ (part_nonneg' (g_months g)) factor_month).
  assert (Nw := factor_mul_nonneg _ _ _ (part_nonneg' (g_weeks g)) factor_7). assert (Nd := part_nonneg' (g_days g)).
  assert (N1 := fadd_nonneg _ _ Ny Nm). assert (N2 := fadd_nonneg _ _ N1 Nw).
  destruct (fadd_finite _ _ N2 Nd H) as (F2 & Fd). destruct (fadd_finite _ _ N1 Nw F2) as (F1 & Fw). destruct (fadd_finite _ _ Ny Nm F1) as (Fy & Fm).
  assert (Ay := amount_factor (g_years g) _ _ factor_year). assert (Am := amount_factor (g_months g) _ _ factor_month). assert (Aw := amount_factor (g_weeks g) _ _ factor_7).
  assert (Ad := amount_nonneg (g_days g)).
  assert (Py := product_near _ _ _ factor_year Fy). assert (Pm := product_near _ _ _ factor_month Fm). assert (Pw := product_near _ _ _ factor_7 Fw). assert (Pd := part_near _ Fd).
  set (Y := (amount (g_years g) * days_per_year)%Q) in *. set (M := (amount (g_months g) * days_per_month)%Q) in *. set (W := (amount (g_weeks g) * 7)%Q) in *.
  assert (S1 := add_step _ _ 3 b1 Y M Ny Fy Nm Fm F1 ltac:(lra) ltac:(lra) B1 Ay Am Py Pm).
  assert (Pw' : near 4 (8 * b1) (val (fmul (part_value (g_weeks g)) c7)) W) by (apply near_weaken with b1; [lra|]; apply near_k with 3%Q; [lra|exact Aw|exact Pw]).
  assert (S2 := add_step _ _ 4 (8 * b1) (Y + M) W N1 F1 Nw Fw F2 ltac:(lra) ltac:(lra) ltac:(lra) ltac:(lra) Aw S1 Pw').
  assert (Pd' : near 5 (64 * b1) (val (part_value (g_days g))) (amount (g_days g))) by (apply near_weaken with tiny; [unfold b1, b0, p50; lra|]; apply near_k with 1%Q; [lra|exact Ad|exact Pd]).
  assert (S2' : near 5 (64 * b1) (val (fadd (fadd (fmul (part_value (g_years g)) c365_2425) (fmul (part_value (g_months g)) c30_436875)) (fmul (part_value (g_weeks g)) c7))) (Y + M + W)) by (eapply near_weaken; [|exact S2]; lra).
  assert (S3 := add_step _ _ 5 (64 * b1) (Y + M + W) _ N2 F2 Nd Fd H ltac:(lra) ltac:(lra) ltac:(lra) ltac:(lra) Ad S2' Pd').
  eapply near_weaken; [|exact S3]. unfold b2, p50. lra.
Qed.

Lemma py_days_finite g : (days_meant g <= 1000000000)%Q -> finite (py_days g).
Proof.
  intros H. unfold days_meant in H.
  assert (Ay := amount_factor (g_years g) _ _ factor_year). assert (Am := amount_factor (g_months g) _ _ factor_month). assert (Aw := amount_factor (g_weeks g) _ _ factor_7).
  assert (Ad := amount_nonneg (g_days g)). destruct b_bounds as (B0 & B1 & B2 & B3 & C0 & C1 & C2 & C3). assert (T := tiny_pos).
  assert (Fy : finite (fmul (part_value (g_years g)) c365_2425)) by (apply (product_finite _ _ _ factor_year); [lra|vm_compute; discriminate]).
  assert (Fm : finite (fmul (part_value (g_months g)) c30_436875)) by (apply (product_finite _ _ _ factor_month); [lra|vm_compute; discriminate]).
  assert (Fw : finite (fmul (part_value (g_weeks g)) c7)) by (apply (product_finite _ _ _ factor_7); [lra|vm_compute; discriminate]).
  assert (Fd : finite (part_value (g_days g))) by (apply part_finite_ns; lra).
  assert (Ny := factor_mul_nonneg _ _ _ (part_nonneg' (g_years g)) factor_year). assert (Nm := factor_mul_nonneg _ _ _ (part_nonneg' (g_months g)) factor_month).
  assert (Nw := factor_mul_nonneg _ _ _ (part_nonneg' (g_weeks g)) factor_7). assert (Nd := part_nonneg' (g_days g)).
  destruct (product_near _ _ _ factor_year Fy) as (_ & Uy). destruct (product_near _ _ _ factor_month Fm) as (_ & Um). destruct (product_near _ _ _ factor_7 Fw) as (_ & Uw). destruct (part_near _ Fd) as (_ & Ud).
  assert (Vy := val_nonneg _ Ny). assert (Vm := val_nonneg _ Nm). assert (Vw := val_nonneg _ Nw). assert (Vd := val_nonneg _ Nd). unfold eta in *.
  destruct (small_rounded _ _ (fadd_rounded _ _ Ny Fy Nm Fm) ltac:(lra) ltac:(lra)) as (N1 & F1 & _ & U1). assert (V1 := val_nonneg _ N1).
  destruct (small_rounded _ _ (fadd_rounded _ _ N1 F1 Nw Fw) ltac:(lra) ltac:(lra)) as (N2 & F2 & _ & U2). assert (V2 := val_nonneg _ N2).
  destruct (small_rounded _ _ (fadd_rounded _ _ N2 F2 Nd Fd) ltac:(lra) ltac:(lra)) as (N3 & F3 & _ & U3). exact F3.
Qed.

(** * The whole *)
Definition us_meant (g : groups) : Q := (seconds_meant g * 1000000)%Q.
Definition py_sum (g : groups) (total : Z) : Prop := exists a1 a2 sum l,
  accum 60000000 (part_value (g_minutes g)) (seconds_units 6 (g_seconds g), S754_zero false) = Some a1 /\
  accum 3600000000 (part_value (g_hours g)) a1 = Some a2 /\ accum us_per_day (py_days g) a2 = Some (sum, l) /\ total = round_leftover sum l.

Lemma py_dur_from_sum s d : py_dur_from s = Some d <-> exists g total, (duration g s \/ exists s0, s = s0 ++ [10%N] /\ duration g s0) /\ (places (g_seconds g) <= 6)%nat /\
  py_sum g total /\ timedelta_ok total = true /\ d = (if negative g then - total else total) /\ timedelta_ok d = true.
Proof.
  unfold py_dur_from. split.
  - destruct (match_duration end_python s) as [g|] eqn:E; [|discriminate]. apply match_python_iff in E.
    destruct (fraction_units 6 (fraction_of (g_seconds g))) as [us|] eqn:Ef; [|discriminate]. apply fraction_units_iff in Ef. destruct Ef as [Hp Hu].
    change (10 ^ Z.of_nat 6) with 1000000 in Hu. rewrite Hu. change (fadd (fadd (fadd (fmul (float_or_zero (g_years g)) c365_2425) (fmul (float_or_zero (g_months g)) c30_436875)) (fmul (float_or_zero (g_weeks g)) c7)) (float_or_zero (g_days g))) with (py_days g).
    destruct (accum 60000000 _ _) as [a1|] eqn:E1; [|discriminate]. destruct (accum 3600000000 _ _) as [a2|] eqn:E2; [|discriminate].
    destruct (accum us_per_day _ _) as [[sum l]|] eqn:E3; [|discriminate]. destruct (timedelta_ok (round_leftover sum l)) eqn:T1; [|discriminate].
    destruct (timedelta_ok (if negative g then _ else _)) eqn:T2; [|discriminate]. intros X. injection X as <-. exists g, (round_leftover sum l).
    split; [exact E|]. split; [exact Hp|]. split; [exists a1, a2, sum, l; repeat split; assumption|]. repeat split; assumption.
  - intros (g & total & E & Hp & (a1 & a2 & sum & l & E1 & E2 & E3 & ->) & T1 & -> & T2). apply match_python_iff in E. rewrite E.
    destruct (fraction_units 6 (fraction_of (g_seconds g))) as [us|] eqn:Ef.
    2: { exfalso. assert (E' : fraction_units 6 (fraction_of (g_seconds g)) = Some (seconds_units 6 (g_seconds g) - seconds_of (g_seconds g) * 10 ^ Z.of_nat 6)).
        { apply fraction_units_iff. split; [exact Hp|lia]. } congruence. }
    apply fraction_units_iff in Ef. destruct Ef as [_ Hu]. change (10 ^ Z.of_nat 6) with 1000000 in Hu. rewrite Hu.
    change (fadd (fadd (fadd (fmul (float_or_zero (g_years g)) c365_2425) (fmul (float_or_zero (g_months g)) c30_436875)) (fmul (float_or_zero (g_weeks g)) c7)) (float_or_zero (g_days g))) with (py_days g).
    unfold part_value in E1, E2. rewrite E1, E2, E3, T1, T2. reflexivity.
Qed.

Lemma accum_finite c x acc r : accum c x acc = Some r -> finite x.
Proof. destruct acc. unfold accum. destruct x; try (intros; exact I); cbn; discriminate. Qed.

Lemma py_sum_finite g : finite (part_value (g_minutes g)) -> finite (part_value (g_hours g)) -> finite (py_days g) ->
  (places (g_seconds g) <= 6)%nat ->
  exists total, py_sum g total /\ within_error (inject_Z total) (us_meant g) (us_meant g * (1 # 1125899906842624) + (501 # 1000)).
Proof.
  intros Fm Fh Fd Hp.
  assert (Nm := part_nonneg' (g_minutes g)). assert (Nh := part_nonneg' (g_hours g)). assert (Nd := py_days_nonneg g).
  destruct (accum_near 60000000 _ (seconds_units 6 (g_seconds g)) (S754_zero false) factor_minute ltac:(unfold us_per_day; lia) ltac:(vm_compute; reflexivity) Nm Fm I I ltac:(vm_compute; discriminate))
    as (s1 & l1 & E1 & Nl1 & Fl1 & V1 & A1 & A2). cbn [val] in V1, A1, A2.
  destruct (accum_near 3600000000 _ s1 l1 factor_hour ltac:(unfold us_per_day; lia) ltac:(vm_compute; reflexivity) Nh Fh Nl1 Fl1 ltac:(lra)) as (s2 & l2 & E2 & Nl2 & Fl2 & V2 & B1' & B2').
  destruct (accum_near us_per_day _ s2 l2 factor_day ltac:(lia) ltac:(vm_compute; reflexivity) Nd Fd Nl2 Fl2 ltac:(lra)) as (s3 & l3 & E3 & Nl3 & Fl3 & V3 & C1' & C2').
  destruct (round_leftover_near s3 l3 Nl3 Fl3) as (R1 & R2).
  exists (round_leftover s3 l3). split; [exists (s1, l1), (s2, l2), s3, l3; auto|].
  assert (SV := seconds_value 6 (g_seconds g) Hp). change (inject_Z (10 ^ Z.of_nat 6)) with 1000000%Q in SV. rewrite SV in A1, A2.
  destruct (part_near _ Fm) as (M1 & M2). destruct (part_near _ Fh) as (H1 & H2). destruct (py_days_near g Fd) as (D1 & D2).
  assert (Am := amount_nonneg (g_minutes g)). assert (Ah := amount_nonneg (g_hours g)). assert (As := amount_nonneg (g_seconds g)).
  assert (Ad : (0 <= days_meant g)%Q).
  { unfold days_meant. assert (Ay := amount_factor (g_years g) _ _ factor_year). assert (Amo := amount_factor (g_months g) _ _ factor_month). assert (Aw := amount_factor (g_weeks g) _ _ factor_7). assert (Add := amount_nonneg (g_days g)). lra. }
  destruct b_bounds as (B0 & B1 & B2 & B3 & C0 & C1 & C2 & C3). assert (T := tiny_pos). assert (TS := tiny_small).
  assert (B86 : (b2 * 86400000000 <= 1 # 1125899906842624)%Q). { eapply Qle_trans; [|exact C3]. unfold b3, p50. lra. }
  change (inject_Z us_per_day) with 86400000000%Q in *. change (inject_Z 60000000) with 60000000%Q in *. change (inject_Z 3600000000) with 3600000000%Q in *.
  unfold within_error. assert (EU : (us_meant g == days_meant g * 86400000000 + amount (g_hours g) * 3600000000 + amount (g_minutes g) * 60000000 + amount (g_seconds g) * 1000000)%Q) by (unfold us_meant, seconds_meant, days_meant; ring).
  rewrite EU. unfold eta in *. split; lra.
Qed.

Lemma py_sum_fun g t t' : py_sum g t -> py_sum g t' -> t = t'.
Proof. intros (a & b & s & l & E1 & E2 & E3 & ->) (a' & b' & s' & l' & E1' & E2' & E3' & ->). congruence. Qed.

Theorem python_error s d : py_dur_from s = Some d -> exists g, (duration g s \/ exists s0, s = s0 ++ [10%N] /\ duration g s0) /\
  within_error (inject_Z d) (signed_value g (us_meant g)) (us_meant g * (1 # 1125899906842624) + (501 # 1000)).
Proof.
  intros H. apply py_dur_from_sum in H as (g & total & Hg & Hp & S & _ & -> & _). exists g. split; [exact Hg|]. apply signed_error.
  destruct S as (a1 & a2 & sum & l & E1 & E2 & E3 & Et). destruct (py_sum_finite g (accum_finite _ _ _ _ E1) (accum_finite _ _ _ _ E2) (accum_finite _ _ _ _ E3) Hp) as (t' & S' & W).
  rewrite (py_sum_fun g total t'); [exact W| |exact S']. exists a1, a2, sum, l. auto.
Qed.

Lemma python_accepts g s : (duration g s \/ exists s0, s = s0 ++ [10%N] /\ duration g s0) -> (places (g_seconds g) <= 6)%nat ->
  (us_meant g <= (if negative g then 86399999913599900000 else 86399999999999900000))%Q -> exists d, py_dur_from s = Some d.
Proof.
  intros Hg Hp Hm. assert (Hm' : (us_meant g <= 86399999999999900000)%Q) by (destruct (negative g); lra).
  assert (EU : (us_meant g == days_meant g * 86400000000 + amount (g_hours g) * 3600000000 + amount (g_minutes g) * 60000000 + amount (g_seconds g) * 1000000)%Q) by (unfold us_meant, seconds_meant, days_meant; ring).
  assert (Am := amount_nonneg (g_minutes g)). assert (Ah := amount_nonneg (g_hours g)). assert (As := amount_nonneg (g_seconds g)).
  assert (Ad : (0 <= days_meant g)%Q).
  { unfold days_meant. assert (Ay := amount_factor (g_years g) _ _ factor_year). assert (Amo := amount_factor (g_months g) _ _ factor_month). assert (Aw := amount_factor (g_weeks g) _ _ factor_7). assert (Add := amount_nonneg (g_days g)). lra. }
  destruct (py_sum_finite g) as (total & S & (W1 & W2)); [apply part_finite_ns; lra|apply part_finite_ns; lra|apply py_days_finite; lra|exact Hp|].
  assert (U0 : (0 <= us_meant g)%Q) by lra.
  assert (L0 : 0 <= total). { assert (X : (inject_Z (-1) < inject_Z total)%Q) by (change (inject_Z (-1)) with (-1)%Q; lra). rewrite <- Zlt_Qlt in X. lia. }
  assert (L1 : total < 1000000000 * us_per_day). { rewrite Zlt_Qlt. change (inject_Z (1000000000 * us_per_day)) with 86400000000000000000%Q. lra. }
  assert (L2 : negative g = true -> total <= 999999999 * us_per_day). { intros En. rewrite En in Hm. rewrite Zle_Qle. change (inject_Z (999999999 * us_per_day)) with 86399999913600000000%Q. lra. }
  exists (if negative g then - total else total). apply py_dur_from_sum. exists g, total. split; [exact Hg|]. split; [exact Hp|]. split; [exact S|].
  assert (T1 : timedelta_ok total = true). { unfold timedelta_ok, us_per_day in *. apply andb_true_iff. split; [apply Z.leb_le|apply Z.ltb_lt]; lia. }
  split; [exact T1|]. split; [reflexivity|]. destruct (negative g); [|exact T1]. specialize (L2 eq_refl). unfold timedelta_ok, us_per_day in *. apply andb_true_iff. split; [apply Z.leb_le|apply Z.ltb_lt]; lia.
Qed.
