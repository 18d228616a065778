(** Rounding never yields a negative number and keeps a lower bound that is a power
    of two. *)
From Verif Require Import Base M_Dec M_Schema M_Duration S_Duration P_Float P_DurFloat.
From Coq Require Import List ZArith NArith Bool Lia Floats.SpecFloat Zpower.
Import ListNotations.
Open Scope Z_scope.

Lemma shr_1_m r : 0 <= shr_m r -> shr_m (shr_1 r) = shr_m r / 2.
Proof.
  destruct r as [m r s]. simpl. destruct m as [|m|m]; intros H; [reflexivity| |lia].
  destruct m as [p|p|]; simpl.
  - rewrite Pos2Z.inj_xI. apply (Z.div_unique _ 2 (Zpos p) 1); lia.
  - rewrite Pos2Z.inj_xO. apply (Z.div_unique _ 2 (Zpos p) 0); lia.
  - reflexivity.
Qed.

Lemma iter_shr_m p : forall r, 0 <= shr_m r ->
  shr_m (Pos.iter shr_1 r p) = shr_m r / 2 ^ Zpos p.
Proof.
  induction p as [|p IH] using Pos.peano_ind; intros r H.
  - simpl Pos.iter. rewrite shr_1_m by exact H. reflexivity.
  - rewrite Pos.iter_succ_r. pose proof (shr_1_m r H) as E.
    assert (0 <= shr_m (shr_1 r)) by (rewrite E; apply Z.div_pos; lia).
    rewrite IH by assumption. rewrite E. rewrite Pos2Z.inj_succ, Z.pow_succ_r by lia.
    apply Z.div_div; [lia|]. apply pow2_pos. lia.
Qed.

Lemma shr_record_m m l : shr_m (shr_record_of_loc m l) = m.
Proof. destruct l as [|[]]; reflexivity. Qed.

Lemma shr_spec r e n : 0 <= shr_m r ->
  let '(r', e') := shr r e n in
  shr_m r' = shr_m r / 2 ^ Z.max n 0 /\ e' = e + Z.max n 0.
Proof.
  intros H. unfold shr. destruct n as [|p|p].
  - rewrite Z.max_id. change (2 ^ 0) with 1. rewrite Z.div_1_r. split; [reflexivity|lia].
  - rewrite iter_pos_iter. rewrite Z.max_l by lia. split; [apply iter_shr_m; exact H|reflexivity].
  - rewrite Z.max_r by lia. change (2 ^ 0) with 1. rewrite Z.div_1_r. split; [reflexivity|lia].
Qed.

(** [m * 2^e >= 2^q] for a positive [m]. *)
Definition big (q m e : Z) : Prop := 0 < m /\ q < Zdigits2 m + e.

Lemma zdigits_bound m : 0 < m -> 2 ^ (Zdigits2 m - 1) <= m < 2 ^ Zdigits2 m /\ 0 < Zdigits2 m.
Proof. destruct m as [|m|m]; try lia. intros _. pose proof (digits2_bound m). simpl Zdigits2. lia. Qed.

Lemma zdigits_mono m m' : 0 < m <= m' -> Zdigits2 m <= Zdigits2 m'.
Proof.
  intros H. destruct (zdigits_bound m) as [[A B] C]; [lia|]. destruct (zdigits_bound m') as [[A' B'] C']; [lia|].
  assert (Zdigits2 m - 1 < Zdigits2 m') by (apply (Z.pow_lt_mono_r_iff 2); lia). lia.
Qed.

Lemma zdigits_shift m s : 0 < m -> 0 <= s <= Zdigits2 m - 1 ->
  0 < m / 2 ^ s /\ Zdigits2 (m / 2 ^ s) = Zdigits2 m - s.
Proof.
  intros H Hs. destruct (zdigits_bound m H) as [[A B] C]. pose proof (pow2_pos s ltac:(lia)) as P.
  assert (L : 2 ^ (Zdigits2 m - s - 1) <= m / 2 ^ s).
  { apply Z.div_le_lower_bound; [exact P|]. rewrite <- Z.pow_add_r by lia.
    replace (s + (Zdigits2 m - s - 1)) with (Zdigits2 m - 1) by lia. exact A. }
  assert (U : m / 2 ^ s < 2 ^ (Zdigits2 m - s)).
  { apply Z.div_lt_upper_bound; [exact P|]. rewrite <- Z.pow_add_r by lia.
    replace (s + (Zdigits2 m - s)) with (Zdigits2 m) by lia. exact B. }
  pose proof (pow2_pos (Zdigits2 m - s - 1) ltac:(lia)).
  assert (Hp : 0 < m / 2 ^ s) by lia. split; [exact Hp|].
  destruct (m / 2 ^ s) as [|x|x] eqn:E; try lia. simpl. apply digits2_unique. lia.
Qed.

Lemma shr_fexp_big q m e l : 0 <= q -> big q m e ->
  let '(r', e') := shr_fexp 53 1024 m e l in big q (shr_m r') e'.
Proof.
  intros Hq [Hm Hb]. unfold shr_fexp.
  pose proof (shr_spec (shr_record_of_loc m l) e (fexp 53 1024 (Zdigits2 m + e) - e)) as S.
  rewrite shr_record_m in S. specialize (S ltac:(lia)).
  destruct (shr _ _ _) as [r' e']. destruct S as [-> ->].
  destruct (zdigits_bound m Hm) as [_ Hd].
  destruct (zdigits_shift m (Z.max (fexp 53 1024 (Zdigits2 m + e) - e) 0) Hm) as [Hp E].
  { unfold fexp, emin. lia. }
  split; [exact Hp|]. rewrite E. lia.
Qed.

Lemma round_up m l : m <= round_nearest_even m l <= m + 1.
Proof. destruct l as [|[]]; simpl; try lia. destruct (Z.even m); lia. Qed.

(** [f >= 2^q] *)
Definition fbig (q : Z) (f : spec_float) : Prop :=
  match f with
  | S754_infinity s => s = false
  | S754_finite s m e => s = false /\ q < Zpos (digits2_pos m) + e
  | _ => False
  end.

Lemma round_aux_big q m e l : 0 <= q -> big q m e -> fbig q (binary_round_aux 53 1024 false m e l).
Proof.
  intros Hq Hb. unfold binary_round_aux. pose proof (shr_fexp_big q m e l Hq Hb) as H1.
  destruct (shr_fexp 53 1024 m e l) as [r1 e1].
  assert (H2 : big q (round_nearest_even (shr_m r1) (loc_of_shr_record r1)) e1).
  { destruct H1 as [Hp Hd]. pose proof (round_up (shr_m r1) (loc_of_shr_record r1)) as R. split; [lia|].
    pose proof (zdigits_mono (shr_m r1) (round_nearest_even (shr_m r1) (loc_of_shr_record r1)) ltac:(lia)). lia. }
  pose proof (shr_fexp_big q _ e1 loc_Exact Hq H2) as H3. destruct (shr_fexp _ _ _ e1 loc_Exact) as [r2 e2].
  destruct H3 as [Hp Hd]. destruct (shr_m r2) as [|m2|m2]; try lia.
  destruct (Zle_bool e2 (1024 - 53)); simpl; [|reflexivity]. split; [reflexivity|]. simpl in Hd. exact Hd.
Qed.

(** Never negative. *)
Lemma round_aux_nonneg m e l : 0 <= m -> fnonneg (binary_round_aux 53 1024 false m e l).
Proof.
  intros Hm. unfold binary_round_aux, shr_fexp.
  pose proof (shr_spec (shr_record_of_loc m l) e (fexp 53 1024 (Zdigits2 m + e) - e)) as S.
  rewrite shr_record_m in S. specialize (S Hm). destruct (shr _ _ _) as [r' e']. destruct S as [E _].
  assert (H1 : 0 <= shr_m r').
  { rewrite E. apply Z.div_pos; [exact Hm|]. apply pow2_pos. lia. }
  pose proof (round_up (shr_m r') (loc_of_shr_record r')) as R.
  set (x := round_nearest_even _ _) in *.
  pose proof (shr_spec (shr_record_of_loc x loc_Exact) e' (fexp 53 1024 (Zdigits2 x + e') - e')) as S.
  rewrite shr_record_m in S. specialize (S ltac:(lia)). destruct (shr _ e' _) as [r2 e2]. destruct S as [E2 _].
  assert (H2 : 0 <= shr_m r2).
  { rewrite E2. apply Z.div_pos; [lia|]. apply pow2_pos. lia. }
  destruct (shr_m r2); [exact I| |lia]. destruct (Zle_bool e2 (1024 - 53)); reflexivity.
Qed.

Lemma shl_align_spec m e e' :
  let '(m', e'') := shl_align m e e' in
  Zpos (digits2_pos m') + e'' = Zpos (digits2_pos m) + e /\ e'' <= e /\ Zpos m' = Zpos m * 2 ^ (e - e'').
Proof.
  unfold shl_align. destruct (e' - e) as [|d|d] eqn:E.
  - rewrite Z.sub_diag. change (2 ^ 0) with 1. lia.
  - rewrite Z.sub_diag. change (2 ^ 0) with 1. lia.
  - rewrite digits2_shift. split; [lia|]. split; [lia|]. replace (e - e') with (Zpos d) by lia.
    rewrite shift_pos_correct. rewrite Zpower_pos_nat, Zpower_nat_Z, positive_nat_Z. lia.
Qed.

Lemma binary_round_big q m e : 0 <= q -> q < Zpos (digits2_pos m) + e -> fbig q (binary_round 53 1024 false m e).
Proof.
  intros Hq Hb. unfold binary_round.
  pose proof (shl_align_spec m e (fexp 53 1024 (Zpos (digits2_pos m) + e))) as S.
  destruct (shl_align m e _) as [m' e']. destruct S as [E _].
  apply round_aux_big; [exact Hq|]. split; [lia|]. simpl Zdigits2. lia.
Qed.

Lemma binary_round_nonneg m e : fnonneg (binary_round 53 1024 false m e).
Proof.
  unfold binary_round. destruct (shl_align m e _) as [m' e']. apply round_aux_nonneg. lia.
Qed.

Lemma binary_round_int m e n k j :
  Zpos m * 2 ^ Z.max e 0 = n * 2 ^ Z.max (- e) 0 ->
  n = Zpos k * 2 ^ j -> Zpos k < 2 ^ 53 -> 0 <= j <= 900 ->
  fval (binary_round 53 1024 false m e) n.
Proof.
  intros Hv Hn Hk Hj. unfold binary_round.
  pose proof (shl_align_spec m e (fexp 53 1024 (Zpos (digits2_pos m) + e))) as S.
  destruct (shl_align m e _) as [m' e']. destruct S as (_ & He & Em).
  apply (round_int m' e' n k j); try assumption. rewrite Em.
  pose (a := Z.max e 0). pose (b := Z.max (- e) 0). pose (a' := Z.max e' 0). pose (b' := Z.max (- e') 0).
  assert (Hab : (e - e') + a' + b = a + b') by (unfold a, b, a', b'; lia).
  fold a b in Hv. fold a' b'.
  assert (0 <= a /\ 0 <= b /\ 0 <= a' /\ 0 <= b') as (? & ? & ? & ?) by (unfold a, b, a', b'; lia).
  apply (Z.mul_reg_r _ _ (2 ^ b)); [pose proof (pow2_pos b); lia|].
  rewrite <- !Z.mul_assoc, <- !Z.pow_add_r by lia.
  replace (e - e' + (a' + b)) with (a + b') by lia. rewrite Z.pow_add_r by lia.
  rewrite Z.mul_assoc, Hv. rewrite (Z.add_comm b' b), Z.pow_add_r by lia. ring.
Qed.

(** ** Products *)

Lemma fmul_nonneg f g : fnonneg f -> fnonneg g -> finite g -> (forall s, g <> S754_zero s) -> fnonneg (fmul f g).
Proof.
  unfold fmul. destruct f as [s|s| |s m e]; destruct g as [s'|s'| |s' m' e']; simpl; intros Hf Hg Hfin Hz;
    try contradiction; subst; try (exfalso; exact (Hz s' eq_refl)); try exact I; try reflexivity.
  apply round_aux_nonneg. lia.
Qed.

Lemma digits_mul_ge m m' : Zpos (digits2_pos m) + Zpos (digits2_pos m') - 1 <= Zpos (digits2_pos (m * m')).
Proof.
  destruct (digits2_bound m) as [_ A]. destruct (digits2_bound m') as [_ A'].
  destruct (digits2_bound (m * m')) as [B _]. rewrite Pos2Z.inj_mul in B.
  assert (2 ^ (Zpos (digits2_pos m) - 1 + (Zpos (digits2_pos m') - 1)) < 2 ^ Zpos (digits2_pos (m * m'))).
  { rewrite Z.pow_add_r by lia. eapply Z.le_lt_trans; [|exact B]. apply Z.mul_le_mono_nonneg; try lia;
      apply Z.lt_le_incl, pow2_pos; lia. }
  assert (Zpos (digits2_pos m) - 1 + (Zpos (digits2_pos m') - 1) < Zpos (digits2_pos (m * m')))
    by (apply (Z.pow_lt_mono_r_iff 2); lia).
  lia.
Qed.

Lemma fmul_big p q f g : 0 <= p -> 0 <= q -> fbig p f -> fbig q g -> fbig (p + q) (fmul f g).
Proof.
  intros Hp Hq. unfold fmul. destruct f as [s|s| |s m e]; destruct g as [s'|s'| |s' m' e']; cbn [fbig]; try contradiction.
  - intros -> ->. reflexivity.
  - intros -> [-> _]. reflexivity.
  - intros [-> _] ->. reflexivity.
  - intros [-> H] [-> H']. apply round_aux_big; [lia|]. split; [lia|].
    cbn [Zdigits2]. pose proof (digits_mul_ge m m'). lia.
Qed.

Lemma fval_fbig q f n : 0 <= q -> fval f n -> 2 ^ q <= n -> fbig q f.
Proof.
  intros Hq. destruct f as [s|s| |s m e]; cbn [fval fbig]; try contradiction.
  - intros -> H. pose proof (pow2_pos q Hq). lia.
  - destruct s; [contradiction|]. intros H Hn. split; [reflexivity|].
    destruct (digits2_bound m) as [B _].
    pose proof (pow2_pos (Z.max e 0) ltac:(lia)) as P1. pose proof (pow2_pos (Z.max (- e) 0) ltac:(lia)) as P2.
    assert (2 ^ (q + Z.max (- e) 0) < 2 ^ (Zpos (digits2_pos m) + Z.max e 0)).
    { rewrite !Z.pow_add_r by lia. apply Z.le_lt_trans with (n * 2 ^ Z.max (- e) 0).
      - apply Z.mul_le_mono_nonneg_r; lia.
      - rewrite <- H. apply Z.mul_lt_mono_pos_r; lia. }
    assert (q + Z.max (- e) 0 < Zpos (digits2_pos m) + Z.max e 0) by (apply (Z.pow_lt_mono_r_iff 2); lia).
    lia.
Qed.

Lemma fmul_fbig q f g a b : 0 <= q -> fval f a -> fval g b -> 2 ^ q <= a * b -> fbig q (fmul f g).
Proof.
  intros Hq Hf Hg H. destruct f as [s|s| |s m e]; cbn [fval] in Hf; try contradiction.
  - subst a. pose proof (pow2_pos q Hq). lia.
  - destruct s; [contradiction|]. destruct g as [s'|s'| |s' m' e']; cbn [fval] in Hg; try contradiction.
    + subst b. pose proof (pow2_pos q Hq). lia.
    + destruct s'; [contradiction|]. unfold fmul, SFmul. cbn [xorb]. apply round_aux_big; [exact Hq|].
      split; [lia|].
      assert (Hv : fval (S754_finite false (m * m') (e + e')) (a * b)).
      { cbn [fval]. rewrite Pos2Z.inj_mul.
        assert (Hprod : (Zpos m * Zpos m') * (2 ^ Z.max e 0 * 2 ^ Z.max e' 0) =
                      (a * b) * (2 ^ Z.max (- e) 0 * 2 ^ Z.max (- e') 0)).
        { transitivity ((Zpos m * 2 ^ Z.max e 0) * (Zpos m' * 2 ^ Z.max e' 0)); [ring|]. rewrite Hf, Hg. ring. }
        rewrite <- !Z.pow_add_r in Hprod by lia.
        pose (c := Z.max e 0 + Z.max e' 0 - Z.max (e + e') 0).
        assert (Hc : 0 <= c) by (unfold c; lia).
        replace (Z.max e 0 + Z.max e' 0) with (Z.max (e + e') 0 + c) in Hprod by (unfold c; lia).
        replace (Z.max (- e) 0 + Z.max (- e') 0) with (Z.max (- (e + e')) 0 + c) in Hprod by (unfold c; lia).
        rewrite !Z.pow_add_r in Hprod by lia. pose proof (pow2_pos c Hc).
        apply (Z.mul_reg_r _ _ (2 ^ c)); [lia|]. rewrite <- !Z.mul_assoc in *. lia. }
      destruct (fval_fbig q _ _ Hq Hv H) as [_ Hd]. exact Hd.
Qed.

Lemma fbig_nonneg q f : fbig q f -> fnonneg f.
Proof. destruct f; simpl; tauto. Qed.

Lemma fval_finite f n : fval f n -> finite f /\ fnonneg f.
Proof. destruct f as [s|s| |[] m e]; simpl; tauto. Qed.

Lemma fbig_floor q f z : 0 <= q -> fbig q f -> floor_is f z -> 2 ^ q <= z.
Proof.
  intros Hq. destruct f as [s|s| |s m e]; cbn [fbig floor_is]; try contradiction.
  intros [-> Hd]. destruct (digits2_bound m) as [_ B]. destruct (Z.leb_spec 0 e).
  - intros ->. apply Z.le_trans with (2 ^ (Zpos (digits2_pos m) - 1 + e)).
    + apply Z.pow_le_mono_r; lia.
    + rewrite Z.pow_add_r by lia. apply Z.mul_le_mono_nonneg_r; [apply Z.lt_le_incl, pow2_pos; lia|exact B].
  - intros [_ Hz]. pose proof (pow2_pos (- e) ltac:(lia)) as P.
    assert (2 ^ (q + - e) < (z + 1) * 2 ^ (- e)).
    { eapply Z.le_lt_trans; [|exact Hz]. apply Z.le_trans with (2 ^ (Zpos (digits2_pos m) - 1)); [|exact B].
      apply Z.pow_le_mono_r; lia. }
    rewrite Z.pow_add_r in H0 by lia. apply Z.mul_lt_mono_pos_r in H0; [lia|exact P].
Qed.

Lemma fbig_ge q f : 0 <= q -> fbig q f -> float_ge f (2 ^ q) = true.
Proof.
  intros Hq H. destruct f as [s|s| |s m e] eqn:E; try contradiction.
  - simpl in H. subst s. reflexivity.
  - destruct (floor_exists f) as (z & Hz & Hfl); rewrite ?E; [exact (fbig_nonneg _ _ H)|exact I|].
    rewrite E in Hfl. rewrite (float_ge_floor _ z _ Hfl). apply Z.leb_le. eapply fbig_floor; eassumption.
Qed.

(** ** Sums *)

Lemma fadd_nonneg f g : fnonneg f -> fnonneg g -> fnonneg (fadd f g).
Proof.
  unfold fadd. destruct f as [s|s| |s m e]; destruct g as [s'|s'| |s' m' e']; simpl; intros Hf Hg; subst;
    try contradiction; try exact I; try reflexivity.
  - destruct (Bool.eqb s s'); exact I.
  - apply binary_round_nonneg.
Qed.

Lemma shl_fst m e ez : ez <= e -> Zpos (fst (shl_align m e ez)) = Zpos m * 2 ^ (e - ez).
Proof.
  intros H. pose proof (shl_align_spec m e ez) as S. unfold shl_align in *.
  destruct (ez - e) as [|d|d] eqn:E; simpl fst.
  - replace (e - ez) with 0 by lia. change (2 ^ 0) with 1. lia.
  - lia.
  - destruct S as (_ & _ & S). exact S.
Qed.

Lemma fadd_int f g a b : fval f a -> fval g b -> a + b < 2 ^ 53 -> fval (fadd f g) (a + b).
Proof.
  intros Hf Hg H. pose proof (fval_nonneg _ _ Hf) as Ha. pose proof (fval_nonneg _ _ Hg) as Hb.
  destruct f as [s|s| |s m e]; try contradiction.
  - cbn [fval] in Hf. subst a. unfold fadd. destruct g as [s'|s'| |s' m' e']; try contradiction.
    + cbn [fval] in Hg. subst b. simpl. destruct (Bool.eqb s s'); reflexivity.
    + exact Hg.
  - destruct s; [contradiction|]. unfold fadd. destruct g as [s'|s'| |s' m' e']; try contradiction.
    + cbn [fval] in Hg. subst b. rewrite Z.add_0_r. exact Hf.
    + destruct s'; [contradiction|]. cbn [SFadd cond_Zopp].
      pose proof (fval_pos_finite _ _ _ Hf) as Ha'. pose proof (fval_pos_finite _ _ _ Hg) as Hb'.
      cbn [fval] in Hf, Hg. set (ez := Z.min e e').
      pose proof (shl_fst m e ez ltac:(unfold ez; lia)) as E1.
      pose proof (shl_fst m' e' ez ltac:(unfold ez; lia)) as E2.
      set (x := fst (shl_align m e ez)) in *. set (y := fst (shl_align m' e' ez)) in *.
      change (Zpos x + Zpos y) with (Zpos (x + y)). cbn [binary_normalize].
      destruct (a + b) as [|k|k] eqn:Ek; [lia| |lia].
      apply (binary_round_int _ _ _ k 0); [|change (2 ^ 0) with 1; lia|exact H|lia].
      rewrite Pos2Z.inj_add, E1, E2, <- Ek.
      assert (A : forall m e n, Zpos m * 2 ^ Z.max e 0 = n * 2 ^ Z.max (- e) 0 -> ez <= e ->
                    Zpos m * 2 ^ (e - ez) * 2 ^ Z.max ez 0 = n * 2 ^ Z.max (- ez) 0).
      { clearbody x y. clear E1 E2. clearbody ez. clear. intros m e n Hv He.
        apply (Z.mul_reg_r _ _ (2 ^ Z.max (- e) 0)); [pose proof (pow2_pos (Z.max (- e) 0)); lia|].
        rewrite <- !Z.mul_assoc, <- !Z.pow_add_r by lia.
        replace (e - ez + (Z.max ez 0 + Z.max (- e) 0)) with (Z.max e 0 + Z.max (- ez) 0) by lia.
        rewrite Z.pow_add_r by lia. rewrite Z.mul_assoc, Hv.
        rewrite (Z.add_comm (Z.max (- ez) 0)), Z.pow_add_r by lia. ring. }
      rewrite Z.mul_add_distr_r. rewrite (A m e a Hf), (A m' e' b Hg) by (unfold ez; lia). ring.
Qed.

Lemma fadd_big_l q f g : 0 <= q -> fbig q f -> fnonneg g -> fbig q (fadd f g).
Proof.
  intros Hq Hf Hg. unfold fadd. destruct f as [s|s| |s m e]; try contradiction.
  - simpl in Hf. subst s. destruct g as [s'|s'| |s' m' e']; simpl in *; try contradiction; subst; reflexivity.
  - destruct Hf as [-> Hd]. destruct g as [s'|s'| |s' m' e']; simpl in Hg; try contradiction; subst.
    + simpl. split; [reflexivity|exact Hd].
    + reflexivity.
    + cbn [SFadd cond_Zopp]. set (ez := Z.min e e').
      pose proof (shl_fst m e ez ltac:(unfold ez; lia)) as E1.
      set (x := fst (shl_align m e ez)) in *. set (y := fst (shl_align m' e' ez)) in *.
      change (Zpos x + Zpos y) with (Zpos (x + y)). cbn [binary_normalize].
      apply binary_round_big; [exact Hq|].
      pose proof (digits2_mul x m (e - ez) E1 ltac:(unfold ez; lia)) as D.
      pose proof (zdigits_mono (Zpos x) (Zpos (x + y)) ltac:(lia)) as M. simpl Zdigits2 in M. lia.
Qed.

Lemma fadd_comm_big f g q : fbig q (fadd f g) -> fnonneg f -> fnonneg g -> fbig q (fadd g f).
Proof.
  unfold fadd. destruct f as [s|s| |s m e]; destruct g as [s'|s'| |s' m' e']; cbn [fnonneg SFadd]; intros H Hf Hg; subst;
    try contradiction; try assumption; try reflexivity.
  - destruct (Bool.eqb s s'); contradiction.
  - cbn [cond_Zopp] in *. rewrite Z.min_comm, Z.add_comm. exact H.
Qed.

Lemma fadd_big_r q f g : 0 <= q -> fbig q g -> fnonneg f -> fbig q (fadd f g).
Proof.
  intros Hq Hg Hf. apply fadd_comm_big; [apply fadd_big_l; assumption|exact (fbig_nonneg _ _ Hg)|exact Hf].
Qed.

Lemma fadd_big q f g a b : 0 <= q -> fval f a -> fval g b -> 2 ^ q <= a + b -> fbig q (fadd f g).
Proof.
  intros Hq Hf Hg H. pose proof (fval_nonneg _ _ Hf) as Ha. pose proof (fval_nonneg _ _ Hg) as Hb.
  destruct f as [s|s| |s m e] eqn:Ef; try contradiction.
  - cbn [fval] in Hf. subst a. pose proof (fval_fbig q g b Hq Hg ltac:(lia)) as B.
    apply fadd_big_r; [exact Hq|exact B|exact I].
  - destruct s; [contradiction|]. destruct g as [s'|s'| |s' m' e'] eqn:Eg; try contradiction.
    + cbn [fval] in Hg. subst b. apply fadd_big_l; [exact Hq| |exact I]. apply (fval_fbig q _ a Hq Hf). lia.
    + destruct s'; [contradiction|]. unfold fadd. cbn [SFadd cond_Zopp].
      cbn [fval] in Hf, Hg. set (ez := Z.min e e').
      pose proof (shl_fst m e ez ltac:(unfold ez; lia)) as E1.
      pose proof (shl_fst m' e' ez ltac:(unfold ez; lia)) as E2.
      set (x := fst (shl_align m e ez)) in *. set (y := fst (shl_align m' e' ez)) in *.
      change (Zpos x + Zpos y) with (Zpos (x + y)). cbn [binary_normalize].
      apply binary_round_big; [exact Hq|].
      assert (Hv : fval (S754_finite false (x + y) ez) (a + b)).
      { cbn [fval]. rewrite Pos2Z.inj_add, E1, E2.
        assert (A : forall m e n, Zpos m * 2 ^ Z.max e 0 = n * 2 ^ Z.max (- e) 0 -> ez <= e ->
                      Zpos m * 2 ^ (e - ez) * 2 ^ Z.max ez 0 = n * 2 ^ Z.max (- ez) 0).
        { clearbody x y. clear E1 E2. clearbody ez. clear. intros m e n Hv He.
          apply (Z.mul_reg_r _ _ (2 ^ Z.max (- e) 0)); [pose proof (pow2_pos (Z.max (- e) 0)); lia|].
          rewrite <- !Z.mul_assoc, <- !Z.pow_add_r by lia.
          replace (e - ez + (Z.max ez 0 + Z.max (- e) 0)) with (Z.max e 0 + Z.max (- ez) 0) by lia.
          rewrite Z.pow_add_r by lia. rewrite Z.mul_assoc, Hv.
          rewrite (Z.add_comm (Z.max (- ez) 0)), Z.pow_add_r by lia. ring. }
        rewrite Z.mul_add_distr_r. rewrite (A m e a Hf), (A m' e' b Hg) by (unfold ez; lia). ring. }
      destruct (fval_fbig q _ _ Hq Hv H) as [_ Hd]. exact Hd.
Qed.
