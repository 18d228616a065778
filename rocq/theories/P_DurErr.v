(** The error of the binary64 arithmetic of the duration parsers. *)
From Verif Require Import Base M_Dec M_Schema M_Duration S_Duration S_DurValue P_Float P_DurFloat P_DurRound P_Duration P_DurSum P_DurText P_DurPrint P_FloatErr.
From Coq Require Import String List NArith ZArith Bool Lia Floats.SpecFloat Zpower QArith Qpower Lqa.
Import ListNotations.
Open Scope Z_scope.

(** A bit more than the relative error of one rounding. *)
Definition eta : Q := 1048577 # 9444732965739290427392.
Definition tiny : Q := pow2 (-1075).
Lemma eps_value : (pow2 (-53) == 1 # 9007199254740992)%Q.
Proof. vm_compute. reflexivity. Qed.
Lemma tiny_pos : (0 < tiny)%Q.
Proof. apply pow2_gt0. Qed.
Lemma tiny_small : (tiny <= 1 # 1606938044258990275541962092341162602522202993782792835301376)%Q.
Proof. unfold tiny. eapply Qle_trans; [apply (pow2_le (-1075) (-200)); lia|]. vm_compute. discriminate. Qed.

Definition near (k a x y : Q) : Prop := (y - (k * eta * y + a) <= x /\ x <= y + (k * eta * y + a))%Q.

Lemma near_move k a x y x' : (0 <= k)%Q -> (k <= 10)%Q -> (0 <= a)%Q -> (0 <= y)%Q -> (0 <= x)%Q -> near k a x y ->
  (x - roundoff x <= x')%Q -> (x' <= x + roundoff x)%Q -> near (k + 1) (2 * a + tiny) x' y.
Proof.
  intros K0 K Ha Hy Hx (N1 & N2). unfold roundoff. rewrite eps_value. fold tiny. intros R1 R2. assert (T := tiny_pos).
  set (P := (k * eta * y)%Q) in *. assert (HP : (P <= 10 * eta * y)%Q).
  { unfold P. apply Qmult_le_compat_r; [|exact Hy]. apply Qmult_le_compat_r; [exact K|discriminate]. }
  assert (HP0 : (0 <= P)%Q). { unfold P. apply Qmult_le_0_compat; [|exact Hy]. apply Qmult_le_0_compat; [exact K0|discriminate]. }
  assert (E : ((k + 1) * eta * y == P + eta * y)%Q) by (unfold P; ring). unfold near. rewrite E. unfold eta in *. split; lra.
Qed.

Lemma near_scale k a x y c : (0 <= c)%Q -> near k a x y -> near k (a * c) (x * c) (y * c).
Proof.
  intros Hc (N1 & N2). unfold near.
  assert (E1 : (y * c - (k * eta * (y * c) + a * c) == (y - (k * eta * y + a)) * c)%Q) by ring.
  assert (E2 : (y * c + (k * eta * (y * c) + a * c) == (y + (k * eta * y + a)) * c)%Q) by ring.
  rewrite E1, E2. split; apply Qmult_le_compat_r; assumption.
Qed.

Lemma near_weaken k a a' x y : (a <= a')%Q -> near k a x y -> near k a' x y.
Proof. intros H (N1 & N2). split; lra. Qed.

(** * Decimal numbers *)
Lemma num_split s t : num_of (s ++ t) = (num_of s * 10 ^ N.of_nat (length t) + num_of t)%N.
Proof.
  unfold num_of. rewrite num_go_app. generalize (num_go 0 s) as a. intros a.
  assert (G : forall acc acc', num_go (acc + acc') t = (acc * 10 ^ N.of_nat (length t) + num_go acc' t)%N).
  { clear. induction t as [|c t IH]; intros acc acc'; [cbn; lia|]. cbn [num_go length]. rewrite Nat2N.inj_succ, N.pow_succ_r by lia.
    match goal with |- num_go ?z t = _ => replace z with (acc * 10 + (acc' * 10 + (c - 48)))%N by lia end. rewrite IH. cbn [num_go]. lia. }
  rewrite <- (N.add_0_r a) at 1. apply G.
Qed.

Lemma part_rounded o : rounded (part_value o) (amount o).
Proof.
  destruct o as [[ds fs]|]; [|apply rounded_zero; reflexivity]. unfold part_value, float_or_zero, float_of_number, amount, decimal_value. cbn [fst snd].
  destruct fs as [f|].
  - set (k := length f). assert (Hp : 0 < 10 ^ Z.of_nat k) by (apply Z.pow_pos_nonneg; lia).
    assert (E10 : Z.of_N (10 ^ N.of_nat k) = 10 ^ Z.of_nat k) by (rewrite N2Z.inj_pow, nat_N_Z; reflexivity).
    assert (Ev : (inject_Z (Z.of_N (num_of ds)) + (Z.of_N (num_of f) # Z.to_pos (10 ^ Z.of_nat k)) ==
                  Z.of_N (num_of (ds ++ f)) # Z.to_pos (10 ^ Z.of_nat k))%Q).
    { unfold Qeq, Qplus, inject_Z. cbn [Qnum Qden]. rewrite num_split. fold k. rewrite N2Z.inj_add, N2Z.inj_mul, E10, Pos.mul_1_l, Z2Pos.id by exact Hp. lia. }
    destruct (num_of (ds ++ f)) as [|p] eqn:En.
    + eapply rounded_eq; [|now apply rounded_zero]. rewrite Ev. reflexivity.
    + destruct (10 ^ N.of_nat k)%N as [|q] eqn:Eq; [cbn in E10; lia|]. assert (Eqq : Z.to_pos (10 ^ Z.of_nat k) = q) by (rewrite <- E10; reflexivity).
      rewrite Eqq in Ev. destruct (Pos.eqb_spec q 1) as [->|].
      * eapply rounded_eq; [|apply binary_round_rounded]. rewrite Eqq, Ev. change (pow2 0) with 1%Q. rewrite Qmult_1_r. reflexivity.
      * eapply rounded_eq; [|apply float_of_ratio_rounded]. rewrite Eqq, Ev. reflexivity.
  - cbn. destruct (num_of ds) as [|p] eqn:En.
    + eapply rounded_eq; [|now apply rounded_zero]. reflexivity.
    + eapply rounded_eq; [|apply binary_round_rounded]. change (pow2 0) with 1%Q. cbn [Z.of_N]. ring.
Qed.

Lemma amount_nonneg o : (0 <= amount o)%Q.
Proof.
  destruct o as [[ds fs]|]; cbn [amount]; [|lra]. unfold decimal_value. cbn [fst snd].
  assert (0 <= inject_Z (Z.of_N (num_of ds)))%Q by (apply (inject_le 0); lia). destruct fs as [f|]; [|lra].
  assert (0 <= Z.of_N (num_of f) # Z.to_pos (10 ^ Z.of_nat (length f)))%Q by (unfold Qle; cbn; lia). lra.
Qed.

Lemma part_near o : finite (part_value o) -> near 1 tiny (val (part_value o)) (amount o).
Proof.
  intros F. destruct (part_rounded o) as (N & [(_ & R1 & R2)|(E & _)]); [|rewrite E in F; contradiction].
  assert (A := amount_nonneg o).
  assert (M := near_move 0 0 (amount o) (amount o) (val (part_value o)) ltac:(lra) ltac:(lra) ltac:(lra) A A).
  assert (S : near 0 0 (amount o) (amount o)) by (unfold near; lra). specialize (M S R1 R2). destruct M. unfold near in *. lra.
Qed.

Lemma part_finite o : (amount o < pow2 900)%Q -> finite (part_value o).
Proof. intros H. destruct (part_rounded o) as (N & [(F & _)|(_ & B)]); [exact F|lra]. Qed.

(** * Multiplication by a constant *)
Definition factor (c : spec_float) (q : Q) : Prop :=
  fnonneg c /\ finite c /\ (forall s, c <> S754_zero s) /\ (0 <= q)%Q /\ (q <= 4398046511104)%Q /\
  (q - roundoff q <= val c)%Q /\ (val c <= q + q * pow2 (-53))%Q /\ (q - q * pow2 (-53) <= val c)%Q.

Lemma fmul_finite f c : fnonneg f -> fnonneg c -> finite c -> (forall s, c <> S754_zero s) -> finite (fmul f c) -> finite f.
Proof.
  intros Nf Nc Fc Zc H. destruct f; try exact I; try contradiction. destruct c; try contradiction; cbn in *; try contradiction.
Qed.

Lemma mul_near f c q k a y : fnonneg f -> factor c q -> finite (fmul f c) -> (0 <= k)%Q -> (k <= 8)%Q -> (0 <= a)%Q -> (0 <= y)%Q ->
  near k a (val f) y -> near (k + 2) (4 * (a * q) + tiny) (val (fmul f c)) (y * q).
Proof.
  intros Nf (Nc & Fc & Zc & Q0 & Q1 & _ & C2 & C1) H K0 K Ha Hy N. assert (Ff := fmul_finite f c Nf Nc Fc Zc H).
  assert (V := val_nonneg f Nf). assert (VC := val_nonneg c Nc). destruct (fmul_rounded f c Nf Ff Nc Fc) as (_ & [(_ & R1 & R2)|(E & _)]); [|rewrite E in H; contradiction].
  assert (Hyq : (0 <= y * q)%Q) by now apply Qmult_le_0_compat. assert (Haq : (0 <= a * q)%Q) by now apply Qmult_le_0_compat.
  assert (Hvq : (0 <= val f * q)%Q) by now apply Qmult_le_0_compat.
  (* the constant *)
  assert (M1 : near (k + 1) (2 * (a * q)) (val f * val c) (y * q)).
  { assert (B1 : (val f * q - val f * q * pow2 (-53) <= val f * val c)%Q).
    { setoid_replace (val f * q - val f * q * pow2 (-53))%Q with (val f * (q - q * pow2 (-53)))%Q by ring. rewrite !(Qmult_comm (val f)). apply Qmult_le_compat_r; assumption. }
    assert (B2 : (val f * val c <= val f * q + val f * q * pow2 (-53))%Q).
    { setoid_replace (val f * q + val f * q * pow2 (-53))%Q with (val f * (q + q * pow2 (-53)))%Q by ring. rewrite !(Qmult_comm (val f)). apply Qmult_le_compat_r; assumption. }
    destruct (near_scale _ _ _ _ q Q0 N) as (S1 & S2). rewrite eps_value in B1, B2.
    set (P := (k * eta * (y * q))%Q) in *. assert (HP : (P <= 10 * eta * (y * q))%Q).
    { unfold P. apply Qmult_le_compat_r; [|exact Hyq]. apply Qmult_le_compat_r; [lra|discriminate]. }
    assert (HP0 : (0 <= P)%Q). { unfold P. apply Qmult_le_0_compat; [|exact Hyq]. apply Qmult_le_0_compat; [exact K0|discriminate]. }
    assert (E : ((k + 1) * eta * (y * q) == P + eta * (y * q))%Q) by (unfold P; ring). unfold near. rewrite E. unfold eta in *. split; lra. }
  assert (Hvc : (0 <= val f * val c)%Q) by now apply Qmult_le_0_compat.
  assert (M2 := near_move (k + 1) (2 * (a * q)) _ _ _ ltac:(lra) ltac:(lra) ltac:(lra) Hyq Hvc M1 R1 R2).
  destruct M2 as (A & B). unfold near. assert (E : ((k + 2) * eta * (y * q) == (k + 1 + 1) * eta * (y * q))%Q) by ring. rewrite E. split; lra.
Qed.

Ltac is_factor := split; [reflexivity|]; split; [exact I|]; split; [discriminate|]; vm_compute; repeat split; discriminate.
Lemma factor_6e10 : factor c6e10 60000000000. Proof. is_factor. Qed.
Lemma factor_3_6e12 : factor c3_6e12 3600000000000. Proof. is_factor. Qed.
Lemma factor_24 : factor c24 24. Proof. is_factor. Qed.
Lemma factor_7 : factor c7 7. Proof. is_factor. Qed.
Lemma factor_month : factor c30_436875 days_per_month. Proof. is_factor. Qed.
Lemma factor_year : factor c365_2425 days_per_year. Proof. is_factor. Qed.

Definition p50 : Q := 1125899906842624.
Definition b0 := tiny.
Definition b1 : Q := b0 * p50.
Definition b2 : Q := b1 * p50.
Definition b3 : Q := b2 * p50.
Lemma b_bounds : (tiny <= b0 /\ tiny <= b1 /\ tiny <= b2 /\ tiny <= b3 /\ b0 <= b3 /\ b1 <= b3 /\ b2 <= b3 /\ b3 <= 1 # 1125899906842624)%Q.
Proof. assert (T := tiny_pos). assert (S := tiny_small). unfold b3, b2, b1, b0, p50. repeat split; lra. Qed.

Lemma mul_step f c q k b y : fnonneg f -> factor c q -> finite (fmul f c) -> (0 <= k)%Q -> (k <= 8)%Q -> (tiny <= b)%Q -> (0 <= y)%Q ->
  near k b (val f) y -> near (k + 2) (b * p50) (val (fmul f c)) (y * q).
Proof.
  intros Nf Fc H K0 K Hb Hy N. assert (T := tiny_pos). assert (M := mul_near f c q k b y Nf Fc H K0 K ltac:(lra) Hy N).
  eapply near_weaken; [|exact M]. destruct Fc as (_ & _ & _ & Q0 & Q1 & _). assert (b * q <= b * 4398046511104)%Q.
  { rewrite !(Qmult_comm b). apply Qmult_le_compat_r; lra. } unfold p50. lra.
Qed.

Lemma mul_finite f c q k b y : fnonneg f -> finite f -> factor c q -> (0 <= k)%Q -> (k <= 8)%Q -> (0 <= b)%Q -> (b <= 1)%Q -> (0 <= y)%Q -> (y * q <= 36893488147419103232)%Q ->
  near k b (val f) y -> finite (fmul f c).
Proof.
  intros Nf Ff (Nc & Fc & Zc & Q0 & Q1 & _ & C2 & C1) K0 K Hb0 Hb Hy Hyq N. destruct (fmul_rounded f c Nf Ff Nc Fc) as (_ & [(F & _)|(_ & B)]); [exact F|].
  exfalso. assert (V := val_nonneg f Nf). assert (S := near_scale _ _ _ _ q Q0 N). destruct S as (_ & S).
  assert (Hyq0 : (0 <= y * q)%Q) by now apply Qmult_le_0_compat.
  assert (HP : (k * eta * (y * q) <= 10 * eta * (y * q))%Q) by (apply Qmult_le_compat_r; [apply Qmult_le_compat_r; [lra|discriminate]|exact Hyq0]).
  assert (Hbq : (b * q <= 1 * 4398046511104)%Q). { apply Qle_trans with (1 * q)%Q; [apply Qmult_le_compat_r; assumption|lra]. }
  assert (Hf : (val f * val c <= val f * q + val f * q * pow2 (-53))%Q).
  { setoid_replace (val f * q + val f * q * pow2 (-53))%Q with (val f * (q + q * pow2 (-53)))%Q by ring. rewrite !(Qmult_comm (val f)). apply Qmult_le_compat_r; assumption. }
  rewrite eps_value in Hf. assert (L : (1267650600228229401496703205376 <= pow2 900)%Q).
  { eapply Qle_trans; [|apply (pow2_le 100 900); lia]. vm_compute. discriminate. }
  unfold eta in *. lra.
Qed.

Lemma floor_val f z : floor_is f z -> (inject_Z z <= val f /\ val f < inject_Z z + 1)%Q.
Proof.
  destruct f as [s|s| |s m e]; cbn [floor_is val]; try contradiction.
  - intros ->. change (inject_Z 0) with 0%Q. lra.
  - destruct s; [contradiction|]. destruct (Z.leb_spec 0 e).
    + intros ->. rewrite inject_Z_mult, pow2_Z by lia. lra.
    + intros (H1 & H2). assert (E : (inject_Z (Zpos m) == inject_Z (Zpos m) * pow2 e * pow2 (- e))%Q).
      { rewrite <- Qmult_assoc, <- pow2_plus. replace (e + - e) with 0 by lia. change (pow2 0) with 1%Q. ring. }
      assert (P := pow2_gt0 (- e)). apply inject_le in H1. apply inject_lt in H2. rewrite inject_Z_mult, <- pow2_Z in H1 by lia.
      rewrite inject_Z_mult, <- pow2_Z, inject_Z_plus in H2 by lia. change (inject_Z 1) with 1%Q in H2. rewrite E in H1, H2. split.
      * apply (Qmult_le_r _ _ _ P). exact H1.
      * apply (Qmult_lt_r _ _ _ P). exact H2.
Qed.

Lemma seconds_value k o : (places o <= k)%nat -> (inject_Z (seconds_units k o) == amount o * inject_Z (10 ^ Z.of_nat k))%Q.
Proof.
  intros Hp. destruct o as [[ds fs]|]; cbn [seconds_units amount]; [|reflexivity]. unfold decimal_value. cbn [fst snd]. destruct fs as [f|].
  - cbn in Hp. rewrite inject_Z_plus, !inject_Z_mult. rewrite Qmult_plus_distr_l. f_equiv.
    assert (P : 0 < 10 ^ Z.of_nat (length f)) by (apply Z.pow_pos_nonneg; lia).
    replace (10 ^ Z.of_nat k) with (10 ^ Z.of_nat (length f) * 10 ^ Z.of_nat (k - length f)) by (rewrite <- Z.pow_add_r by lia; f_equal; lia).
    unfold Qeq, Qmult, inject_Z. cbn [Qnum Qden]. rewrite !Pos.mul_1_r, Z2Pos.id by exact P. ring.
  - rewrite Z.add_0_r, inject_Z_mult. ring.
Qed.

(** * Nanoseconds *)
Definition ns_meant (g : groups) : Q := seconds_meant g * 1000000000.

Lemma nanoseconds_error g total : (places (g_seconds g) <= 9)%nat -> nanoseconds g total ->
  within_error (inject_Z total) (ns_meant g) (ns_meant g * (1 # 1125899906842624) + 7).
Proof.
  intros Hp (zs & F & ->). unfold nanosecond_products in F.
  repeat match goal with H : Forall2 _ (_ :: _) _ |- _ => inversion H; subst; clear H end.
  match goal with H : Forall2 _ [] _ |- _ => inversion H; subst; clear H end.
  match goal with H1 : floor_is (fmul _ c6e10) ?a, H2 : floor_is (fmul (part_value (g_hours g)) _) ?b, H3 : floor_is (fmul (fmul (part_value (g_days g)) _) _) ?c,
    H4 : floor_is (fmul (fmul (fmul (part_value (g_weeks g)) _) _) _) ?d, H5 : floor_is (fmul (fmul (fmul (part_value (g_months g)) _) _) _) ?e, H6 : floor_is (fmul (fmul (fmul (part_value (g_years g)) _) _) _) ?f |- _ =>
    rename H1 into F1, H2 into F2, H3 into F3, H4 into F4, H5 into F5, H6 into F6; set (z1 := a) in *; set (z2 := b) in *; set (z3 := c) in *; set (z4 := d) in *; set (z5 := e) in *; set (z6 := f) in * end.
  destruct b_bounds as (B0 & B1 & B2 & B3 & C0 & C1 & C2 & C3). assert (T := tiny_pos).
  assert (A1 := amount_nonneg (g_years g)). assert (A2 := amount_nonneg (g_months g)). assert (A3 := amount_nonneg (g_weeks g)).
  assert (A4 := amount_nonneg (g_days g)). assert (A5 := amount_nonneg (g_hours g)). assert (A6 := amount_nonneg (g_minutes g)). assert (A7 := amount_nonneg (g_seconds g)).
  assert (inv : forall f c q, fnonneg f -> factor c q -> finite (fmul f c) -> finite f).
  { intros f c q Nf (Nc & Fc & Zc & _) H. exact (fmul_finite f c Nf Nc Fc Zc H). }
  assert (NN : forall f c q, fnonneg f -> factor c q -> fnonneg (fmul f c)) by (intros f c q Nf (Nc & Fc & Zc & _); now apply fmul_nonneg).
  assert (PNN := part_nonneg).
  (* one multiplication *)
  assert (M1 : forall o c q, factor c q -> finite (fmul (part_value o) c) -> near 3 b1 (val (fmul (part_value o) c)) (amount o * q)).
  { intros o c q Hc Hf. assert (Fo := inv _ _ _ (PNN o) Hc Hf). assert (X := mul_step _ _ _ 1 b0 _ (PNN o) Hc Hf ltac:(lra) ltac:(lra) B0 (amount_nonneg o) (part_near o Fo)).
    exact X. }
  assert (Q0 : forall c q, factor c q -> (0 <= q)%Q) by (intros c q (_ & _ & _ & H & _); exact H).
  assert (AQ : forall o c q, factor c q -> (0 <= amount o * q)%Q) by (intros o c q Hc; apply Qmult_le_0_compat; [apply amount_nonneg|eauto]).
  assert (M2 : forall o c q c' q', factor c q -> factor c' q' -> finite (fmul (fmul (part_value o) c) c') -> near 5 b2 (val (fmul (fmul (part_value o) c) c')) (amount o * q * q')).
  { intros o c q c' q' Hc Hc' Hf. assert (N1 := NN _ _ _ (PNN o) Hc). assert (Fo := inv _ _ _ N1 Hc' Hf).
    exact (mul_step _ _ _ 3 b1 _ N1 Hc' Hf ltac:(lra) ltac:(lra) B1 (AQ o c q Hc) (M1 o c q Hc Fo)). }
  assert (M3 : forall o c q c' q' c'' q'', factor c q -> factor c' q' -> factor c'' q'' -> finite (fmul (fmul (fmul (part_value o) c) c') c'') ->
     near 7 b3 (val (fmul (fmul (fmul (part_value o) c) c') c'')) (amount o * q * q' * q'')).
  { intros o c q c' q' c'' q'' Hc Hc' Hc'' Hf. assert (N1 := NN _ _ _ (NN _ _ _ (PNN o) Hc) Hc'). assert (Fo := inv _ _ _ N1 Hc'' Hf).
    refine (mul_step _ _ _ 5 b2 _ N1 Hc'' Hf ltac:(lra) ltac:(lra) B2 _ (M2 o c q c' q' Hc Hc' Fo)). apply Qmult_le_0_compat; eauto. }
  assert (G1 := M1 _ _ _ factor_6e10 (proj1 (floor_finite _ _ F1))). assert (G2 := M1 _ _ _ factor_3_6e12 (proj1 (floor_finite _ _ F2))).
  assert (G3 := M2 _ _ _ _ _ factor_24 factor_3_6e12 (proj1 (floor_finite _ _ F3))).
  assert (G4 := M3 _ _ _ _ _ _ _ factor_7 factor_24 factor_3_6e12 (proj1 (floor_finite _ _ F4))).
  assert (G5 := M3 _ _ _ _ _ _ _ factor_month factor_24 factor_3_6e12 (proj1 (floor_finite _ _ F5))).
  assert (G6 := M3 _ _ _ _ _ _ _ factor_year factor_24 factor_3_6e12 (proj1 (floor_finite _ _ F6))).
  apply floor_val in F1, F2, F3, F4, F5, F6. assert (SV := seconds_value 9 (g_seconds g) Hp). change (inject_Z (10 ^ Z.of_nat 9)) with 1000000000%Q in SV.
  unfold sumZ. cbn [fold_right]. assert (ET : (inject_Z (seconds_units 9 (g_seconds g) + (z1 + (z2 + (z3 + (z4 + (z5 + (z6 + 0))))))) ==
    amount (g_seconds g) * 1000000000 + (inject_Z z1 + (inject_Z z2 + (inject_Z z3 + (inject_Z z4 + (inject_Z z5 + (inject_Z z6)))))))%Q).
  { rewrite !inject_Z_plus, SV. change (inject_Z 0) with 0%Q. ring. }
  clear - ET F1 F2 F3 F4 F5 F6 G1 G2 G3 G4 G5 G6 C0 C1 C2 C3 B0 B1 B2 B3 T A1 A2 A3 A4 A5 A6 A7.
  unfold near, within_error, ns_meant, seconds_meant, eta, days_per_month, days_per_year in *. split; lra.
Qed.

Lemma part_finite_ns o : (amount o <= 36893488147419103232)%Q -> finite (part_value o).
Proof.
  intros H. apply part_finite. eapply Qle_lt_trans; [exact H|]. eapply Qlt_le_trans; [|apply (pow2_le 100 900); lia]. vm_compute. reflexivity.
Qed.

Lemma nanoseconds_exist g : (ns_meant g <= 18446744073709551616)%Q ->
  Forall (fun o => finite (part_value o)) (float_groups g) /\ exists total, nanoseconds g total.
Proof.
  intros HM.
  assert (A1 := amount_nonneg (g_years g)). assert (A2 := amount_nonneg (g_months g)). assert (A3 := amount_nonneg (g_weeks g)).
  assert (A4 := amount_nonneg (g_days g)). assert (A5 := amount_nonneg (g_hours g)). assert (A6 := amount_nonneg (g_minutes g)). assert (A7 := amount_nonneg (g_seconds g)).
  unfold ns_meant, seconds_meant, days_per_month, days_per_year in HM.
  assert (FP : Forall (fun o => finite (part_value o)) (float_groups g)).
  { unfold float_groups. repeat apply Forall_cons; try apply Forall_nil; apply part_finite_ns; lra. }
  split; [exact FP|].
  destruct b_bounds as (B0 & B1 & B2 & B3 & C0 & C1 & C2 & C3). assert (T := tiny_pos).
  assert (NN : forall f c q, fnonneg f -> factor c q -> fnonneg (fmul f c)) by (intros f c q Nf (Nc & Fc & Zc & _); now apply fmul_nonneg).
  assert (PNN := part_nonneg).
  assert (Q0 : forall c q, factor c q -> (0 <= q)%Q) by (intros c q (_ & _ & _ & H & _); exact H).
  assert (AQ : forall o c q, factor c q -> (0 <= amount o * q)%Q) by (intros o c q Hc; apply Qmult_le_0_compat; [apply amount_nonneg|eauto]).
  assert (M1 : forall o c q, In o (float_groups g) -> factor c q -> (amount o * q <= 36893488147419103232)%Q ->
    finite (fmul (part_value o) c) /\ near 3 b1 (val (fmul (part_value o) c)) (amount o * q)).
  { intros o c q Ho Hc Hq. rewrite Forall_forall in FP. assert (Fo := FP o Ho).
    assert (Ff : finite (fmul (part_value o) c)) by (apply (mul_finite _ _ q 1 tiny (amount o)); try assumption; try (apply PNN); try (apply part_near; exact Fo); try lra; apply amount_nonneg).
    split; [exact Ff|]. exact (mul_step _ _ _ 1 b0 _ (PNN o) Hc Ff ltac:(lra) ltac:(lra) B0 (amount_nonneg o) (part_near o Fo)). }
  assert (M2 : forall o c q c' q', In o (float_groups g) -> factor c q -> factor c' q' -> (amount o * q <= 36893488147419103232)%Q -> (amount o * q * q' <= 36893488147419103232)%Q ->
    finite (fmul (fmul (part_value o) c) c') /\ near 5 b2 (val (fmul (fmul (part_value o) c) c')) (amount o * q * q')).
  { intros o c q c' q' Ho Hc Hc' Hq Hq'. destruct (M1 o c q Ho Hc Hq) as (F1 & N1). assert (NN1 := NN _ _ _ (PNN o) Hc).
    assert (Ff : finite (fmul (fmul (part_value o) c) c')) by (apply (mul_finite _ _ q' 3 b1 (amount o * q)); try assumption; try lra; eauto).
    split; [exact Ff|]. exact (mul_step _ _ _ 3 b1 _ NN1 Hc' Ff ltac:(lra) ltac:(lra) B1 (AQ o c q Hc) N1). }
  assert (M3 : forall o c q c' q' c'' q'', In o (float_groups g) -> factor c q -> factor c' q' -> factor c'' q'' -> (amount o * q <= 36893488147419103232)%Q -> (amount o * q * q' <= 36893488147419103232)%Q ->
    (amount o * q * q' * q'' <= 36893488147419103232)%Q -> finite (fmul (fmul (fmul (part_value o) c) c') c'')).
  { intros o c q c' q' c'' q'' Ho Hc Hc' Hc'' Hq Hq' Hq''. destruct (M2 o c q c' q' Ho Hc Hc' Hq Hq') as (F1 & N1). assert (NN1 := NN _ _ _ (NN _ _ _ (PNN o) Hc) Hc').
    apply (mul_finite _ _ q'' 5 b2 (amount o * q * q')); try assumption; try lra. apply Qmult_le_0_compat; eauto. }
  assert (E : Forall (fun p => exists z, floor_is p z) (nanosecond_products g)).
  { assert (PR := products_nonneg g). unfold nanosecond_products in *.
    repeat match goal with H : Forall fnonneg (_ :: _) |- _ => inversion H; subst; clear H end.
    assert (FE : forall f, fnonneg f -> finite f -> exists z, floor_is f z) by (intros f N F; destruct (floor_exists f N F) as (z & _ & Hz); eauto).
    unfold days_per_month, days_per_year in *.
    repeat apply Forall_cons; try apply Forall_nil; (apply FE; [assumption|]).
    - apply (M1 (g_minutes g) _ _ ltac:(cbn; tauto) factor_6e10). lra.
    - apply (M1 (g_hours g) _ _ ltac:(cbn; tauto) factor_3_6e12). lra.
    - apply (M2 (g_days g) _ _ _ _ ltac:(cbn; tauto) factor_24 factor_3_6e12); lra.
    - apply (M3 (g_weeks g) _ _ _ _ _ _ ltac:(cbn; tauto) factor_7 factor_24 factor_3_6e12); lra.
    - apply (M3 (g_months g) _ _ _ _ _ _ ltac:(cbn; tauto) factor_month factor_24 factor_3_6e12); unfold days_per_month, days_per_year; lra.
    - apply (M3 (g_years g) _ _ _ _ _ _ ltac:(cbn; tauto) factor_year factor_24 factor_3_6e12); unfold days_per_year; lra. }
  assert (Z : exists zs, Forall2 floor_is (nanosecond_products g) zs).
  { induction E as [|p l (z & Hz) _ (zs & IH)]; [exists []; constructor|]. exists (z :: zs). now constructor. }
  destruct Z as (zs & Z). eexists. exists zs. split; [exact Z|reflexivity].
Qed.

Lemma signed_error g total y r : within_error (inject_Z total) y r ->
  within_error (inject_Z (if negative g then - total else total)) (signed_value g y) r.
Proof. unfold within_error, signed_value. destruct (negative g); [rewrite inject_Z_opp|]; intros; lra. Qed.

Theorem go_error s d : go_dur_from s = Some d -> exists g, duration g s /\
  within_error (inject_Z d) (signed_value g (ns_meant g)) (ns_meant g * (1 # 1125899906842624) + 7).
Proof.
  intros H. apply go_dur_from_iff in H as (g & total & Hg & Hp & _ & Hn & _ & ->). exists g. split; [exact Hg|]. apply signed_error. now apply nanoseconds_error.
Qed.

Lemma total_fits g total : (places (g_seconds g) <= 9)%nat -> nanoseconds g total -> (ns_meant g <= 9223372036854767608)%Q -> total <= max_int64.
Proof.
  intros Hp Hn Hm. destruct (nanoseconds_error g total Hp Hn) as (_ & U).
  assert (L : (inject_Z total < inject_Z (max_int64 + 1))%Q). { change (inject_Z (max_int64 + 1)) with 9223372036854775808%Q. lra. }
  rewrite <- Zlt_Qlt in L. lia.
Qed.

Lemma go_accepts g s : duration g s -> (places (g_seconds g) <= 9)%nat -> (ns_meant g <= 9223372036854767608)%Q -> exists d, go_dur_from s = Some d.
Proof.
  intros Hg Hp Hm. destruct (nanoseconds_exist g) as (F & total & Hn); [lra|]. eexists. apply go_dur_from_iff. exists g, total.
  repeat (split; [eassumption|]). split; [now apply total_fits with g|reflexivity].
Qed.

Theorem cpp_error s d : cpp_dur_from false s = CppOk d -> exists g, duration g s /\
  within_error (inject_Z d) (signed_value g (ns_meant g)) (ns_meant g * (1 # 1125899906842624) + 7).
Proof.
  intros H. apply cpp_dur_from_iff in H as (g & total & Hg & Hp & _ & Hn & _ & ->). exists g. split; [exact Hg|]. apply signed_error. now apply nanoseconds_error.
Qed.

(** std::stod does not throw if there are not too many digits. *)
Lemma part_normal o : (amount o <= 36893488147419103232)%Q -> (places o <= 300)%nat -> stod_throws o = false.
Proof.
  intros Hb Hp. destruct o as [[ds fs]|]; [|reflexivity]. assert (F := part_finite_ns _ Hb). unfold stod_throws.
  destruct (num_of match fs with Some f => ds ++ f | None => ds end) as [|p] eqn:En.
  - assert (E : float_of_number (ds, fs) = S754_zero false). { unfold float_of_number. destruct fs; rewrite En; reflexivity. }
    rewrite E. reflexivity.
  - assert (N : normal (float_of_number (ds, fs))).
    { unfold float_of_number. destruct fs as [f|]; rewrite En.
      - cbn in Hp. assert (P10 : 0 < 10 ^ Z.of_nat (length f)) by (apply Z.pow_pos_nonneg; lia).
        destruct (10 ^ N.of_nat (length f))%N as [|q] eqn:Eq.
        { exfalso. assert (E : Z.of_N (10 ^ N.of_nat (length f)) = 10 ^ Z.of_nat (length f)) by (rewrite N2Z.inj_pow, nat_N_Z; reflexivity). rewrite Eq in E. cbn in E. lia. }
        destruct (q =? 1)%positive.
        + apply binary_round_rounded. apply Qle_trans with 1%Q; [vm_compute; discriminate|]. change (pow2 0) with 1%Q. rewrite Qmult_1_r. apply (inject_le 1). lia.
        + apply float_of_ratio_rounded. assert (Hq : Zpos q <= 10 ^ 300).
          { change (Zpos q) with (Z.of_N (Npos q)). rewrite <- Eq, N2Z.inj_pow, nat_N_Z. apply Z.pow_le_mono_r; lia. }
          apply Qle_trans with (1 # Z.to_pos (10 ^ 300))%Q; [vm_compute; discriminate|]. unfold Qle. cbn [Qnum Qden]. rewrite Z2Pos.id by (apply Z.pow_pos_nonneg; lia). nia.
      - cbn [length N.of_nat N.pow]. apply binary_round_rounded. apply Qle_trans with 1%Q; [vm_compute; discriminate|]. change (pow2 0) with 1%Q. rewrite Qmult_1_r. apply (inject_le 1). lia. }
    unfold part_value, float_or_zero in F. destruct N as [N|(m & e & N & Hm)]; rewrite N in *; [contradiction|]. apply Z.ltb_ge. exact Hm.
Qed.

Lemma cpp_accepts g s : duration g s -> (places (g_seconds g) <= 9)%nat -> Forall (fun o => (places o <= 300)%nat) (float_groups g) ->
  (ns_meant g <= 9223372036854767608)%Q -> exists d, cpp_dur_from false s = CppOk d.
Proof.
  intros Hg Hp H300 Hm. destruct (nanoseconds_exist g) as (F & total & Hn); [lra|]. eexists. apply cpp_dur_from_iff. exists g, total.
  split; [exact Hg|]. split; [exact Hp|]. split; [|split; [exact Hn|split; [now apply total_fits with g|reflexivity]]].
  assert (A1 := amount_nonneg (g_years g)). assert (A2 := amount_nonneg (g_months g)). assert (A3 := amount_nonneg (g_weeks g)).
  assert (A4 := amount_nonneg (g_days g)). assert (A5 := amount_nonneg (g_hours g)). assert (A6 := amount_nonneg (g_minutes g)). assert (A7 := amount_nonneg (g_seconds g)).
  unfold ns_meant, seconds_meant, days_per_month, days_per_year in Hm. unfold float_groups in *.
  repeat match goal with H : Forall _ (_ :: _) |- _ => inversion H; subst; clear H end.
  repeat apply Forall_cons; try apply Forall_nil; (apply part_normal; [lra|assumption]).
Qed.
