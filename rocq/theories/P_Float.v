(** Integers of magnitude below 2^53 are represented exactly by floats. *)
From Verif Require Import Base M_Schema S_Conform.
From Coq Require Import List ZArith Bool Lia Floats.SpecFloat Zpower.
Import ListNotations.
Open Scope Z_scope.

Lemma digits2_shift k m : digits2_pos (shift_pos k m) = (digits2_pos m + k)%positive.
Proof.
  unfold shift_pos. revert m. induction k as [|k IH] using Pos.peano_ind; intros m.
  - simpl. lia.
  - rewrite Pos.iter_succ. cbn [digits2_pos]. rewrite IH. lia.
Qed.

Lemma digits2_bound m : Zpos m < 2 ^ Zpos (digits2_pos m) /\ 2 ^ (Zpos (digits2_pos m) - 1) <= Zpos m.
Proof.
  induction m as [m IH|m IH|]; cbn [digits2_pos]; [| |simpl; lia].
  all: replace (Zpos (Pos.succ (digits2_pos m))) with (Zpos (digits2_pos m) - 1 + 1 + 1) by lia.
  all: replace (Zpos (digits2_pos m) - 1 + 1 + 1 - 1) with (Zpos (digits2_pos m) - 1 + 1) by lia.
  all: rewrite !Z.pow_add_r by lia; change (2 ^ 1) with 2.
  all: assert (E : 2 ^ Zpos (digits2_pos m) = 2 ^ (Zpos (digits2_pos m) - 1) * 2)
         by (rewrite <- (Z.pow_add_r 2 _ 1) by lia; f_equal; lia).
  all: rewrite E in IH; lia.
Qed.

Lemma digits2_small m : Zpos m < 2 ^ 53 -> Zpos (digits2_pos m) <= 53.
Proof.
  intros H. destruct (digits2_bound m) as [_ Hb].
  destruct (Z_le_gt_dec (Zpos (digits2_pos m)) 53) as [Hle|Hgt]; [exact Hle|exfalso].
  assert (2 ^ 53 <= 2 ^ (Zpos (digits2_pos m) - 1)) by (apply Z.pow_le_mono_r; lia). lia.
Qed.

Lemma round_aux_exact s mz ez : fexp 53 1024 (Zpos (digits2_pos mz) + ez) = ez -> ez <= 971 ->
  binary_round_aux 53 1024 s (Zpos mz) ez loc_Exact = S754_finite s mz ez.
Proof.
  intros Hf He. unfold binary_round_aux, shr_fexp.
  cbn [shr_record_of_loc Zdigits2]. rewrite Hf. rewrite Z.sub_diag. cbn [shr shr_m loc_of_shr_record round_nearest_even].
  cbn [Zdigits2]. rewrite Hf, Z.sub_diag. cbn [shr shr_m].
  rewrite (proj2 (Z.leb_le ez (1024 - 53))) by lia. reflexivity.
Qed.

Lemma binary_round_exact s m : Zpos m < 2 ^ 53 ->
  exists mz k, binary_round 53 1024 s m 0 = S754_finite s mz (- k) /\ 0 <= k /\
               Zpos mz = Zpos m * 2 ^ k.
Proof.
  intros H. apply digits2_small in H. unfold binary_round, shl_align.
  rewrite Z.add_0_r.
  assert (Hf : fexp 53 1024 (Zpos (digits2_pos m)) = Zpos (digits2_pos m) - 53)
    by (unfold fexp, emin; lia).
  rewrite Hf, Z.sub_0_r. destruct (Zpos (digits2_pos m) - 53) as [|d|d] eqn:E; [|lia|].
  - exists m, 0. rewrite round_aux_exact; [|rewrite Z.add_0_r; exact Hf|lia].
    repeat split; try lia.
  - exists (shift_pos d m), (Zpos d). rewrite round_aux_exact.
    + split; [reflexivity|]. split; [lia|]. rewrite shift_pos_correct. rewrite Zpower_pos_nat, Zpower_nat_Z.
      rewrite positive_nat_Z. lia.
    + rewrite digits2_shift. replace (Zpos (digits2_pos m + d) + Zneg d) with (Zpos (digits2_pos m)) by lia.
      exact Hf.
    + lia.
Qed.

Lemma cmp_exact (s : bool) mz k n m : 0 <= k -> (if s then Zneg mz else Zpos mz) = n * 2 ^ k ->
  cmp_float_Z (S754_finite s mz (- k)) m = Some (n ?= m).
Proof.
  intros Hk E. unfold cmp_float_Z. rewrite E. destruct (0 <=? - k) eqn:Ek.
  - apply Z.leb_le in Ek. replace k with 0 by lia. rewrite Z.opp_0. change (2 ^ 0) with 1.
    rewrite !Z.mul_1_r. reflexivity.
  - rewrite Z.opp_involutive. f_equal. symmetry. rewrite !(Z.mul_comm _ (2 ^ k)).
    apply Zmult_compare_compat_l. apply Z.lt_gt. apply Z.pow_pos_nonneg; lia.
Qed.

Lemma float_of_Z_exact z : Z.abs z < 2 ^ 53 ->
  exists f, float_of_Z z = Some f /\ forall m, cmp_float_Z f m = Some (z ?= m).
Proof.
  intros H. unfold float_of_Z, binary_normalize. destruct z as [|p|p].
  - eexists; split; [reflexivity|]. reflexivity.
  - destruct (binary_round_exact false p) as (mz & k & E & Hk & Em); [exact H|]. rewrite E.
    eexists; split; [reflexivity|]. intros m. apply cmp_exact; [exact Hk|exact Em].
  - destruct (binary_round_exact true p) as (mz & k & E & Hk & Em); [exact H|]. rewrite E.
    eexists; split; [reflexivity|]. intros m. apply cmp_exact; [exact Hk|].
    rewrite <- !Pos2Z.opp_pos, Em. lia.
Qed.

Lemma float_of_Z_in_range b z f : Z.abs z < 2 ^ 53 -> in_range b z -> float_of_Z z = Some f ->
  float_in_range b f.
Proof.
  intros Hz [Hmn Hmx] E. destruct (float_of_Z_exact z Hz) as (f' & E' & Hc).
  rewrite E in E'. injection E' as <-. split; intros m Hm; rewrite Hc.
  - specialize (Hmn m Hm). destruct (b_exmin b).
    + left. f_equal. apply Z.compare_gt_iff. exact Hmn.
    + destruct (Z.compare_spec z m); [right; split; congruence|exfalso; lia|left; reflexivity].
  - specialize (Hmx m Hm). destruct (b_exmax b).
    + left. f_equal. apply Z.compare_lt_iff. exact Hmx.
    + destruct (Z.compare_spec z m); [right; split; congruence|left; reflexivity|exfalso; lia].
Qed.
