(** Binary64 arithmetic on integral values is exact. *)
From Verif Require Import Base M_Dec M_Schema M_Duration S_Duration P_Float.
From Coq Require Import List ZArith Bool Lia Floats.SpecFloat Zpower.
Import ListNotations.
Open Scope Z_scope.

(** [f] is the integer [n >= 0]. *)
Definition fval (f : spec_float) (n : Z) : Prop :=
  match f with
  | S754_zero _ => n = 0
  | S754_finite false m e => Zpos m * 2 ^ Z.max e 0 = n * 2 ^ Z.max (- e) 0
  | _ => False
  end.

Lemma pow2_pos k : 0 <= k -> 0 < 2 ^ k.
Proof. intros H. apply Z.pow_pos_nonneg; lia. Qed.

Lemma pos_cancel m a n b : 0 < m -> 0 < a -> 0 < b -> m * a = n * b -> 0 < n.
Proof.
  intros Hm Ha Hb E. apply (Z.mul_pos_cancel_r n b Hb). rewrite <- E. apply Z.mul_pos_pos; assumption.
Qed.

Lemma fval_nonneg f n : fval f n -> 0 <= n.
Proof.
  destruct f as [s|s| |s m e]; simpl; try lia. destruct s; [contradiction|]. intros H.
  apply Z.lt_le_incl. apply (pos_cancel (Zpos m) (2 ^ Z.max e 0) n (2 ^ Z.max (- e) 0)); try apply pow2_pos; try lia; exact H. 
Qed.

(** Shifting a multiple of [2^p] to the right by [p] loses nothing. *)
Lemma shr_1_even x : shr_1 (Build_shr_record (x * 2) false false) = Build_shr_record x false false.
Proof. rewrite Z.mul_comm. destruct x as [|x|x]; reflexivity. Qed.

Lemma iter_shr_1 p : forall m,
  Pos.iter shr_1 (Build_shr_record (m * 2 ^ Zpos p) false false) p = Build_shr_record m false false.
Proof.
  induction p as [|p IH] using Pos.peano_ind; intros m.
  - apply shr_1_even.
  - rewrite Pos.iter_succ_r.
    replace (m * 2 ^ Zpos (Pos.succ p)) with ((m * 2 ^ Zpos p) * 2)
      by (rewrite Pos2Z.inj_succ, Z.pow_succ_r by lia; lia).
    rewrite shr_1_even. apply IH.
Qed.

Lemma iter_pos_iter {A} (f : A -> A) n : forall x, iter_pos f n x = Pos.iter f x n.
Proof.
  induction n as [n IH|n IH|]; intros x; simpl; [|rewrite !IH; reflexivity|reflexivity].
  rewrite !IH. rewrite <- !Pos.iter_swap. reflexivity.
Qed.

Lemma digits2_unique m d : 2 ^ (d - 1) <= Zpos m < 2 ^ d -> Zpos (digits2_pos m) = d.
Proof.
  intros [H1 H2]. destruct (digits2_bound m) as [B1 B2].
  assert (0 < d). { destruct (Z_le_gt_dec d 0); [|lia]. 
    assert (2 ^ d <= 2 ^ 0) by (apply Z.pow_le_mono_r; lia). change (2 ^ 0) with 1 in *. lia. }
  assert (d - 1 < Zpos (digits2_pos m)) by (apply (Z.pow_lt_mono_r_iff 2); lia).
  assert (Zpos (digits2_pos m) - 1 < d) by (apply (Z.pow_lt_mono_r_iff 2); lia).
  lia.
Qed.

Lemma digits2_mul m k p : Zpos m = Zpos k * 2 ^ p -> 0 <= p ->
  Zpos (digits2_pos m) = Zpos (digits2_pos k) + p.
Proof.
  intros E Hp. apply digits2_unique. destruct (digits2_bound k) as [B1 B2]. rewrite E.
  replace (Zpos (digits2_pos k) + p - 1) with ((Zpos (digits2_pos k) - 1) + p) by lia.
  rewrite !Z.pow_add_r by lia. pose proof (pow2_pos p Hp). nia.
Qed.

(** [2^p] factors can be moved. *)
Lemma fval_pos_finite m e n : fval (S754_finite false m e) n -> 0 < n.
Proof.
  simpl. intros H.
  apply (pos_cancel (Zpos m) (2 ^ Z.max e 0) n (2 ^ Z.max (- e) 0)); try apply pow2_pos; try lia; exact H.
Qed.

Lemma round_int m e n k j :
  Zpos m * 2 ^ Z.max e 0 = n * 2 ^ Z.max (- e) 0 ->
  n = Zpos k * 2 ^ j -> Zpos k < 2 ^ 53 -> 0 <= j <= 900 ->
  fval (binary_round_aux 53 1024 false (Zpos m) e loc_Exact) n.
Proof.
  intros Hv Hn Hk Hj.
  assert (Dk : Zpos (digits2_pos k) <= 53) by (apply digits2_small; exact Hk).
  assert (Hd : Zpos (digits2_pos m) + e = Zpos (digits2_pos k) + j).
  { destruct (Z_le_gt_dec 0 e).
    - rewrite (Z.max_l e 0), (Z.max_r (- e) 0) in Hv by lia. change (2 ^ 0) with 1 in Hv.
      rewrite Z.mul_1_r in Hv. rewrite Hn in Hv.
      pose (q := (k * Z.to_pos (2 ^ j))%positive).
      assert (Eq : Zpos q = Zpos k * 2 ^ j).
      { unfold q. rewrite Pos2Z.inj_mul, Z2Pos.id by (apply pow2_pos; lia). reflexivity. }
      rewrite <- (digits2_mul q k j Eq) by lia.
      symmetry. apply digits2_mul; [|lia]. rewrite Eq, <- Hv. reflexivity.
    - rewrite (Z.max_r e 0), (Z.max_l (- e) 0) in Hv by lia. change (2 ^ 0) with 1 in Hv.
      rewrite Z.mul_1_r in Hv.
      rewrite (digits2_mul m k (j + - e)); [lia| |lia].
      rewrite Hv, Hn, Z.pow_add_r by lia. lia. }
  pose (d := Zpos (digits2_pos m)). fold d in Hd.
  assert (Hf : fexp 53 1024 (d + e) = d + e - 53).
  { unfold fexp, emin. lia. }
  destruct (Z_le_gt_dec (d - 53) 0) as [Hle|Hgt].
  - (* no shift *)
    unfold binary_round_aux, shr_fexp. cbn [shr_record_of_loc Zdigits2]. fold d. rewrite Hf.
    replace (d + e - 53 - e) with (d - 53) by lia.
    destruct (d - 53) as [|p|p] eqn:E; [|lia|].
    + cbn [shr shr_m loc_of_shr_record round_nearest_even Zdigits2]. fold d. rewrite Hf.
      replace (d + e - 53 - e) with 0 by lia. cbn [shr shr_m].
      rewrite (proj2 (Z.leb_le e (1024 - 53))) by lia. simpl. exact Hv.
    + cbn [shr shr_m loc_of_shr_record round_nearest_even Zdigits2]. fold d. rewrite Hf.
      replace (d + e - 53 - e) with (Zneg p) by lia. cbn [shr shr_m].
      rewrite (proj2 (Z.leb_le e (1024 - 53))) by lia. simpl. exact Hv.
  - (* exact shift by d - 53 *)
    assert (Hm : exists q, Zpos m = Zpos q * 2 ^ (d - 53)).
    { assert (Hje : 0 <= j - e - (d - 53)) by lia.
      exists (k * Z.to_pos (2 ^ (j - e - (d - 53))))%positive.
      rewrite Pos2Z.inj_mul, Z2Pos.id by (apply pow2_pos; lia).
      rewrite <- Z.mul_assoc, <- Z.pow_add_r by lia.
      replace (j - e - (d - 53) + (d - 53)) with (j - e) by lia.
      destruct (Z_le_gt_dec 0 e).
      - rewrite (Z.max_l e 0), (Z.max_r (- e) 0) in Hv by lia. change (2 ^ 0) with 1 in Hv.
        rewrite Z.mul_1_r, Hn in Hv. replace j with (j - e + e) in Hv by lia.
        rewrite Z.pow_add_r in Hv by lia. pose proof (pow2_pos e ltac:(lia)). nia.
      - rewrite (Z.max_r e 0), (Z.max_l (- e) 0) in Hv by lia. change (2 ^ 0) with 1 in Hv.
        rewrite Z.mul_1_r in Hv. rewrite Hv, Hn. rewrite <- Z.mul_assoc, <- Z.pow_add_r by lia. reflexivity. }
    destruct Hm as (q & Hm).
    assert (Hdq : Zpos (digits2_pos q) = 53).
    { pose proof (digits2_mul m q (d - 53) Hm ltac:(lia)) as E. fold d in E. lia. }
    destruct (d - 53) as [|p|p] eqn:E; [lia| |lia].
    unfold binary_round_aux, shr_fexp. cbn [shr_record_of_loc Zdigits2]. fold d. rewrite Hf.
    replace (d + e - 53 - e) with (Zpos p) by lia. unfold shr at 1.
    rewrite Hm. rewrite iter_pos_iter.
    change (shr_record_of_loc (Zpos q * 2 ^ Zpos p) loc_Exact) with (Build_shr_record (Zpos q * 2 ^ Zpos p) false false).
    rewrite iter_shr_1. cbn [shr_m loc_of_shr_record round_nearest_even Zdigits2 shr_record_of_loc].
    rewrite Hdq. replace (fexp 53 1024 (53 + (e + Zpos p)) - (e + Zpos p)) with 0 by (unfold fexp, emin; lia).
    cbn [shr shr_m]. rewrite (proj2 (Z.leb_le (e + Zpos p) (1024 - 53))) by lia.
    cbv iota. unfold fval.
    destruct (Z_le_gt_dec 0 e).
    + rewrite (Z.max_l e 0), (Z.max_r (- e) 0) in Hv by lia.
      rewrite (Z.max_l (e + _) 0), (Z.max_r (- (e + _)) 0) by lia. rewrite <- Hv, Hm.
      rewrite Z.pow_add_r by lia. lia.
    + rewrite (Z.max_r e 0), (Z.max_l (- e) 0) in Hv by lia. change (2 ^ 0) with 1 in Hv. rewrite Z.mul_1_r in Hv.
      destruct (Z_le_gt_dec 0 (e + Zpos p)).
      * rewrite (Z.max_l (e + _) 0), (Z.max_r (- (e + _)) 0) by lia. change (2 ^ 0) with 1.
        replace (Zpos p) with (e + Zpos p + - e) in Hm by lia. rewrite Z.pow_add_r in Hm by lia.
        rewrite Hm in Hv. pose proof (pow2_pos (- e) ltac:(lia)). nia.
      * rewrite (Z.max_r (e + _) 0), (Z.max_l (- (e + _)) 0) by lia. change (2 ^ 0) with 1.
        replace (- e) with (- (e + Zpos p) + Zpos p) in Hv by lia. rewrite Z.pow_add_r in Hv by lia.
        rewrite Hm in Hv. pose proof (pow2_pos (Zpos p) ltac:(lia)). nia.
Qed.

Lemma fmul_int f g a b k j : fval f a -> fval g b ->
  a * b = k * 2 ^ j -> k < 2 ^ 53 -> 0 <= j <= 900 -> fval (fmul f g) (a * b).
Proof.
  intros Hf Hg E Hk Hj.
  destruct f as [s|s| |s m e]; cbn [fval] in Hf; try contradiction.
  - subst a. destruct g as [s'|s'| |s' m' e']; cbn [fval] in Hg; try contradiction; simpl; try reflexivity.
  - destruct s; [contradiction|]. destruct g as [s'|s'| |s' m' e']; cbn [fval] in Hg; try contradiction.
    + subst b. simpl. lia.
    + destruct s'; [contradiction|]. 
      assert (Ha : 0 < a) by (apply (fval_pos_finite m e); exact Hf).
      assert (Hb : 0 < b) by (apply (fval_pos_finite m' e'); exact Hg).
      pose proof (pow2_pos j ltac:(lia)).
      assert (Hkp : 0 < k) by nia. destruct k as [|k|k]; try lia.
      cbn [fmul SFmul xorb]. unfold fmul, SFmul. cbn [xorb].
      apply (round_int _ _ _ k j); [|exact E|exact Hk|exact Hj].
      rewrite Pos2Z.inj_mul.
      (* scale both sides *)
      pose proof (pow2_pos (Z.max e 0) ltac:(lia)) as P1. pose proof (pow2_pos (Z.max (- e) 0) ltac:(lia)) as P2.
      pose proof (pow2_pos (Z.max e' 0) ltac:(lia)) as P3. pose proof (pow2_pos (Z.max (- e') 0) ltac:(lia)) as P4.
      assert (Hprod : (Zpos m * Zpos m') * (2 ^ Z.max e 0 * 2 ^ Z.max e' 0) =
                      (a * b) * (2 ^ Z.max (- e) 0 * 2 ^ Z.max (- e') 0)).
      { transitivity ((Zpos m * 2 ^ Z.max e 0) * (Zpos m' * 2 ^ Z.max e' 0)); [ring|]. rewrite Hf, Hg. ring. }
      rewrite <- !Z.pow_add_r in Hprod by lia.
      pose (c := Z.max e 0 + Z.max e' 0 - Z.max (e + e') 0).
      assert (Hc : 0 <= c) by (unfold c; lia).
      replace (Z.max e 0 + Z.max e' 0) with (Z.max (e + e') 0 + c) in Hprod by (unfold c; lia).
      replace (Z.max (- e) 0 + Z.max (- e') 0) with (Z.max (- (e + e')) 0 + c) in Hprod by (unfold c; lia).
      rewrite !Z.pow_add_r in Hprod by lia. pose proof (pow2_pos c Hc).
      apply (Z.mul_reg_r _ _ (2 ^ c)); [lia|]. rewrite <- !Z.mul_assoc in *. lia.
Qed.

Lemma fval_small (p : positive) : Zpos p < 2 ^ 53 -> fval (binary_normalize 53 1024 (Zpos p) 0 false) (Zpos p).
Proof.
  intros H. unfold binary_normalize. destruct (binary_round_exact false p H) as (mz & k & E & Hk & Em).
  rewrite E. cbn [fval]. rewrite Z.opp_involutive. rewrite (Z.max_r (- k) 0), (Z.max_l k 0) by lia.
  change (2 ^ 0) with 1. lia.
Qed.

Lemma fval_floor f n : fval f n -> floor_is f n.
Proof.
  destruct f as [s|s| |s m e]; cbn [fval floor_is]; try contradiction; [tauto|]. destruct s; [contradiction|].
  destruct (Z.leb_spec 0 e).
  - rewrite (Z.max_l e 0), (Z.max_r (- e) 0) by lia. change (2 ^ 0) with 1. lia.
  - rewrite (Z.max_r e 0), (Z.max_l (- e) 0) by lia. change (2 ^ 0) with 1.
    pose proof (pow2_pos (- e) ltac:(lia)). lia.
Qed.

Lemma modf_int f n : fval f n -> exists s, modf f = Some (n, S754_zero s).
Proof.
  destruct f as [s|s| |s m e]; cbn [fval modf]; try contradiction.
  - intros ->. exists s. reflexivity.
  - destruct s; [contradiction|]. intros H. destruct (Z.leb_spec 0 e).
    + rewrite (Z.max_l e 0), (Z.max_r (- e) 0) in H by lia. change (2 ^ 0) with 1 in H.
      exists false. rewrite H, Z.mul_1_r. reflexivity.
    + rewrite (Z.max_r e 0), (Z.max_l (- e) 0) in H by lia. change (2 ^ 0) with 1 in H.
      rewrite Z.mul_1_r in H. pose proof (pow2_pos (- e) ltac:(lia)).
      rewrite H, Z.div_mul, Z.mod_mul by lia. exists false. reflexivity.
Qed.

(** [modf] computes the floor. *)
Lemma modf_floor f z : floor_is f z -> exists fr, modf f = Some (z, fr).
Proof.
  destruct f as [s|s| |s m e]; simpl; try contradiction.
  - intros ->. eexists; reflexivity.
  - destruct s; [contradiction|]. destruct (Z.leb_spec 0 e).
    + intros ->. eexists; reflexivity.
    + intros Hz. pose proof (pow2_pos (- e) ltac:(lia)).
      assert (E : Zpos m / 2 ^ (- e) = z).
      { symmetry. apply (Z.div_unique _ _ _ (Zpos m - z * 2 ^ (- e))); lia. }
      rewrite E. eexists; reflexivity.
Qed.

(** Non-negative floats: not NaN, not negative. *)
Definition fnonneg (f : spec_float) : Prop :=
  match f with S754_zero _ => True | S754_infinity s => s = false | S754_nan => False | S754_finite s _ _ => s = false end.
Definition finite (f : spec_float) : Prop :=
  match f with S754_zero _ | S754_finite _ _ _ => True | _ => False end.

Lemma floor_exists f : fnonneg f -> finite f -> exists z, 0 <= z /\ floor_is f z.
Proof.
  destruct f as [s|s| |s m e]; simpl; try contradiction.
  - intros _ _. exists 0. split; [lia|reflexivity].
  - intros -> _. destruct (Z.leb_spec 0 e).
    + exists (Zpos m * 2 ^ e). pose proof (pow2_pos e ltac:(lia)). split; [nia|reflexivity].
    + pose proof (pow2_pos (- e) ltac:(lia)). exists (Zpos m / 2 ^ (- e)).
      pose proof (Z.div_pos (Zpos m) (2 ^ (- e))). pose proof (Z.mul_div_le (Zpos m) (2 ^ (- e))).
      pose proof (Z.mul_succ_div_gt (Zpos m) (2 ^ (- e))). lia.
Qed.

Lemma floor_unique f z z' : floor_is f z -> floor_is f z' -> z = z'.
Proof. intros H H'. apply modf_floor in H, H'. destruct H, H'. congruence. Qed.

Lemma floor_finite f z : floor_is f z -> finite f /\ 0 <= z.
Proof.
  destruct f as [s|s| |s m e]; cbn [floor_is finite]; try contradiction.
  - intros ->. split; [exact I|lia].
  - destruct s; [contradiction|]. intros H. split; [exact I|]. destruct (Z.leb_spec 0 e).
    + pose proof (pow2_pos e ltac:(lia)). subst z. apply Z.mul_nonneg_nonneg; lia.
    + pose proof (pow2_pos (- e) ltac:(lia)) as P.
      assert (0 < z + 1) by (apply (Z.mul_pos_cancel_r _ _ P); lia). lia.
Qed.

(** Comparison with an integer is comparison of the floor. *)
Lemma float_ge_floor f z b : floor_is f z -> float_ge f b = (b <=? z).
Proof.
  unfold float_ge, cmp_float_Z. destruct f as [s|s| |s m e]; cbn [floor_is finite]; try contradiction.
  - intros ->. destruct (Z.compare_spec 0 b); destruct (Z.leb_spec b 0); try reflexivity; lia.
  - destruct s; [contradiction|]. destruct (Z.leb_spec 0 e).
    + intros ->. destruct (Z.compare_spec (Zpos m * 2 ^ e) b); destruct (Z.leb_spec b (Zpos m * 2 ^ e));
        try reflexivity; lia.
    + intros Hz. pose proof (pow2_pos (- e) ltac:(lia)).
      destruct (Z.compare_spec (Zpos m) (b * 2 ^ (- e))); destruct (Z.leb_spec b z); try reflexivity.
      * exfalso. assert ((z + 1) * 2 ^ (- e) <= b * 2 ^ (- e)) by (apply Z.mul_le_mono_nonneg_r; lia). lia.
      * exfalso. assert (b * 2 ^ (- e) <= z * 2 ^ (- e)) by (apply Z.mul_le_mono_nonneg_r; lia). lia.
      * exfalso. assert ((z + 1) * 2 ^ (- e) <= b * 2 ^ (- e)) by (apply Z.mul_le_mono_nonneg_r; lia). lia.
Qed.
