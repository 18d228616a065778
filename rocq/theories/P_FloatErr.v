(** The error of rounding to binary64, over the rational numbers. *)
From Verif Require Import Base M_Dec M_Schema M_Duration S_Duration P_Float P_DurFloat.
From Coq Require Import List ZArith Bool Lia Floats.SpecFloat Zpower QArith Qpower Lqa.
Import ListNotations.
Open Scope Z_scope.

(** * Powers of two *)
Definition pow2 (e : Z) : Q := Qpower 2 e.
Lemma two_nonzero : ~ (2 == 0)%Q.
Proof. discriminate. Qed.
Lemma pow2_plus a b : (pow2 (a + b) == pow2 a * pow2 b)%Q.
Proof. apply Qpower_plus, two_nonzero. Qed.
Lemma pow2_gt0 e : (0 < pow2 e)%Q.
Proof. apply Qpower_0_lt. reflexivity. Qed.
Lemma pow2_le a b : a <= b -> (pow2 a <= pow2 b)%Q.
Proof. intros H. apply Qpower_le_compat_l; [exact H|discriminate]. Qed.
Lemma pow2_Z e : 0 <= e -> (pow2 e == inject_Z (2 ^ e))%Q.
Proof. intros H. unfold pow2. symmetry. apply (Zpower_Qpower 2 e H). Qed.
Lemma pow2_opp e : (pow2 (- e) * pow2 e == 1)%Q.
Proof. rewrite <- pow2_plus. replace (- e + e) with 0 by lia. reflexivity. Qed.
Lemma pow2_1 e : (pow2 (e + 1) == 2 * pow2 e)%Q.
Proof. rewrite pow2_plus. change (pow2 1) with 2%Q. ring. Qed.

Lemma inject_double p : (inject_Z (Zpos (xO p)) == 2 * inject_Z (Zpos p))%Q.
Proof. unfold inject_Z, Qeq; simpl. lia. Qed.
Lemma inject_double1 p : (inject_Z (Zpos (xI p)) == 2 * inject_Z (Zpos p) + 1)%Q.
Proof. unfold inject_Z, Qeq; simpl. lia. Qed.
Lemma inject_le a b : a <= b -> (inject_Z a <= inject_Z b)%Q.
Proof. intros H. rewrite <- Zle_Qle. exact H. Qed.
Lemma inject_lt a b : a < b -> (inject_Z a < inject_Z b)%Q.
Proof. intros H. rewrite <- Zlt_Qlt. exact H. Qed.

(** * Shifting *)

(** The mantissa with the two bits behind it stands for [u]. *)
Definition located (mrs : shr_record) (u : Q) : Prop :=
  let '(Build_shr_record m r s) := mrs in
  0 <= m /\
  match r, s with
  | false, false => u == inject_Z m
  | false, true => inject_Z m < u /\ u < inject_Z m + (1 # 2)
  | true, false => u == inject_Z m + (1 # 2)
  | true, true => inject_Z m + (1 # 2) < u /\ u < inject_Z m + 1
  end%Q.

Lemma located_eq mrs u u' : (u == u')%Q -> located mrs u -> located mrs u'.
Proof. intros E. destruct mrs as [m [] []]; cbn; intros (H & L); (split; [exact H|]); lra. Qed.

Lemma shr_1_located mrs u : located mrs u -> located (shr_1 mrs) (u * (1 # 2)).
Proof.
  destruct mrs as [m r s]. destruct m as [|[p|p|]|p]; [| | | |intros (H & _); lia].
  - destruct r, s; cbn; intros (H & L); (split; [lia|]); change (inject_Z 0) with 0%Q in *; try lra.
  - assert (E := inject_double1 p). destruct r, s; cbn -[inject_Z]; intros (H & L); (split; [lia|]); lra.
  - assert (E := inject_double p). destruct r, s; cbn -[inject_Z]; intros (H & L); (split; [lia|]); lra.
  - destruct r, s; cbn; intros (H & L); (split; [lia|]); change (inject_Z 0) with 0%Q in *; change (inject_Z 1) with 1%Q in *; lra.
Qed.

Lemma iter_located n : forall mrs u, located mrs u -> located (Pos.iter shr_1 mrs n) (u * pow2 (- Zpos n)).
Proof.
  induction n as [|n IH] using Pos.peano_ind; intros mrs u H.
  - apply shr_1_located in H. exact H.
  - rewrite Pos.iter_succ. apply IH in H. apply shr_1_located in H. eapply located_eq; [|exact H].
    replace (- Zpos (Pos.succ n)) with (- Zpos n + - 1) by lia. rewrite pow2_plus. change (pow2 (-1)) with (1 # 2)%Q. ring.
Qed.

Lemma located_bounds mrs u : located mrs u -> (inject_Z (shr_m mrs) <= u /\ u < inject_Z (shr_m mrs) + 1)%Q /\ 0 <= shr_m mrs.
Proof. destruct mrs as [m [] []]; cbn; intros (H & L); (split; [|exact H]); lra. Qed.

Lemma round_close mrs u : located mrs u ->
  let z := round_nearest_even (shr_m mrs) (loc_of_shr_record mrs) in
  0 <= z /\ (inject_Z z - (1 # 2) <= u)%Q /\ (u <= inject_Z z + (1 # 2))%Q.
Proof.
  destruct mrs as [m r s]. assert (E : (inject_Z (m + 1) == inject_Z m + 1)%Q) by (rewrite inject_Z_plus; reflexivity).
  destruct r, s; cbn -[inject_Z]; intros (H & L); try (destruct (Z.even m)); (split; [lia|]); lra.
Qed.

(** * Values *)
Definition val (f : spec_float) : Q :=
  match f with
  | S754_finite false m e => inject_Z (Zpos m) * pow2 e
  | S754_finite true m e => - (inject_Z (Zpos m) * pow2 e)
  | _ => 0
  end.

Lemma val_nonneg f : fnonneg f -> (0 <= val f)%Q.
Proof.
  destruct f as [| | |[] m e]; cbn -[inject_Z]; intros H; try lra; try discriminate.
  apply Qmult_le_0_compat; [apply (inject_le 0); lia|apply Qlt_le_weak, pow2_gt0].
Qed.

Lemma digits_bounds m : 0 < m -> (pow2 (Zdigits2 m - 1) <= inject_Z m)%Q /\ (inject_Z m + 1 <= pow2 (Zdigits2 m))%Q.
Proof.
  intros Hm. destruct m as [|m|m]; try lia. cbn [Zdigits2]. destruct (digits2_bound m) as (B1 & B2).
  rewrite !pow2_Z by lia. split; [now apply inject_le|].
  assert (E : (inject_Z (Zpos m) + 1 == inject_Z (Zpos m + 1))%Q) by (rewrite inject_Z_plus; reflexivity). rewrite E. apply inject_le. lia.
Qed.

Definition roundoff (x : Q) : Q := x * pow2 (-53) + pow2 (-1075).

(** The result of rounding [x]. *)
Definition rounded (f : spec_float) (x : Q) : Prop :=
  fnonneg f /\
  ((finite f /\ (x - roundoff x <= val f)%Q /\ (val f <= x + roundoff x)%Q)
   \/ (f = S754_infinity false /\ (pow2 900 <= x)%Q)).

Lemma shr_fexp_none m e l : fexp 53 1024 (Zdigits2 m + e) <= e -> shr_fexp 53 1024 m e l = (shr_record_of_loc m l, e).
Proof. intros H. unfold shr_fexp. destruct (fexp 53 1024 (Zdigits2 m + e) - e) as [|n|n] eqn:E; try reflexivity. lia. Qed.

Lemma shr_fexp_located m e l u : located (shr_record_of_loc m l) u -> e <= fexp 53 1024 (Zdigits2 m + e) ->
  let e' := fexp 53 1024 (Zdigits2 m + e) in
  exists mrs, shr_fexp 53 1024 m e l = (mrs, e') /\ located mrs (u * pow2 e * pow2 (- e')).
Proof.
  intros H L e'. unfold shr_fexp. fold e' in L |- *. destruct (e' - e) as [|n|n] eqn:E; [| |lia].
  - assert (Ee : e = e') by lia. exists (shr_record_of_loc m l). split; [cbn [shr]; now rewrite <- Ee|].
    eapply located_eq; [|exact H]. rewrite <- Ee, <- Qmult_assoc, (Qmult_comm (pow2 e)), pow2_opp. ring.
  - exists (Pos.iter shr_1 (shr_record_of_loc m l) n). split.
    + unfold shr. rewrite iter_pos_iter. f_equal. lia.
    + apply (iter_located n) in H. eapply located_eq; [|exact H]. replace (- Zpos n) with (e + - e') by lia. rewrite pow2_plus. ring.
Qed.

Lemma Zdigits2_le z k : 0 <= z < 2 ^ k -> 0 <= k -> Zdigits2 z <= k.
Proof.
  intros Hz Hk. destruct z as [|z|z]; cbn [Zdigits2]; try lia. destruct (digits2_bound z) as (B1 & B2).
  assert (Zpos (digits2_pos z) - 1 < k) by (apply (Z.pow_lt_mono_r_iff 2); lia). lia.
Qed.

(** The second shift loses nothing. *)
Lemma final_shift z e : 0 <= z <= 2 ^ 53 -> -1074 <= e ->
  exists m e2, shr_fexp 53 1024 z e loc_Exact = (Build_shr_record m false false, e2) /\
    (inject_Z m * pow2 e2 == inject_Z z * pow2 e)%Q /\ 0 <= m /\ e <= e2 <= e + 1 /\ (e2 = e + 1 -> z = 2 ^ 53) /\ (2 ^ 52 <= z -> 2 ^ 52 <= m).
Proof.
  intros Hz He. destruct (Z.eq_dec z (2 ^ 53)) as [->|N].
  - exists (2 ^ 52), (e + 1). split.
    + unfold shr_fexp. change (Zdigits2 (2 ^ 53)) with 54. replace (fexp 53 1024 (54 + e) - e) with 1 by (unfold fexp, emin; lia). reflexivity.
    + split; [rewrite pow2_1; change (inject_Z (2 ^ 53)) with (2 * inject_Z (2 ^ 52))%Q; ring|]. split; [lia|]. split; [lia|]. split; [reflexivity|lia].
  - exists z, e. split; [|split; [reflexivity|lia]]. apply shr_fexp_none. assert (Zdigits2 z <= 53) by (apply Zdigits2_le; lia). unfold fexp, emin. lia.
Qed.

Lemma round_aux_rounded mx ex lx u : located (shr_record_of_loc mx lx) u ->
  lx = loc_Exact \/ ex <= fexp 53 1024 (Zdigits2 mx + ex) ->
  let x := (u * pow2 ex)%Q in
  let f := binary_round_aux 53 1024 false mx ex lx in
  rounded f x /\
  (ex <= fexp 53 1024 (Zdigits2 mx + ex) -> (pow2 (-1022) <= x)%Q -> f = S754_infinity false \/ exists m e, f = S754_finite false m e /\ 2 ^ 52 <= Zpos m).
Proof.
  intros HL HE x f. assert (Hu : (0 <= u)%Q /\ 0 <= mx /\ (inject_Z mx <= u)%Q /\ (u < inject_Z mx + 1)%Q).
  { destruct (located_bounds _ _ HL) as ((B1 & B2) & B3). assert (E : shr_m (shr_record_of_loc mx lx) = mx) by (destruct lx as [|[]]; reflexivity).
    rewrite E in *. apply (inject_le 0) in B3 as B4. change (inject_Z 0) with 0%Q in B4. repeat split; try lra; exact B3. }
  destruct Hu as (Hu & Hm & B1 & B2). assert (Hx : (0 <= x)%Q) by (apply Qmult_le_0_compat; [exact Hu|apply Qlt_le_weak, pow2_gt0]).
  assert (R : (0 < roundoff x)%Q).
  { unfold roundoff. assert (P1 := pow2_gt0 (-1075)). assert (0 <= x * pow2 (-53))%Q by (apply Qmult_le_0_compat; [exact Hx|apply Qlt_le_weak, pow2_gt0]). lra. }
  destruct (Z_le_gt_dec ex (fexp 53 1024 (Zdigits2 mx + ex))) as [Hs|Hs].
  - destruct (shr_fexp_located mx ex lx u HL Hs) as (mrs & Es & Hl). set (e' := fexp 53 1024 (Zdigits2 mx + ex)) in *. fold x in Hl.
    set (u' := (x * pow2 (- e'))%Q) in *. assert (X : (x == u' * pow2 e')%Q) by (unfold u'; rewrite <- Qmult_assoc, pow2_opp; ring).
    destruct (round_close _ _ Hl) as (Z0 & Z1 & Z2). unfold f, binary_round_aux. rewrite Es.
    set (z := round_nearest_even (shr_m mrs) (loc_of_shr_record mrs)) in *. assert (Hmin : -1074 <= e') by (unfold e', fexp, emin; lia).
    assert (P := pow2_gt0 e'). assert (Hd : 0 < mx -> (pow2 (Zdigits2 mx - 1 + ex) <= x)%Q /\ (x < pow2 (Zdigits2 mx + ex))%Q).
    { intros H. destruct (digits_bounds _ H) as (D1 & D2). rewrite !pow2_plus. unfold x. assert (Pe := pow2_gt0 ex). split.
      - apply Qmult_le_compat_r; lra.
      - apply Qmult_lt_compat_r; lra. }
    assert (Hz53 : z <= 2 ^ 53).
    { assert (U : (u' < pow2 53)%Q).
      { destruct (Z_lt_le_dec 0 mx) as [Hp|Hp].
        - destruct (Hd Hp) as (_ & D2). apply (Qmult_lt_r _ _ _ P). rewrite <- X. eapply Qlt_le_trans; [exact D2|].
          rewrite <- pow2_plus. apply pow2_le. unfold e', fexp, emin. lia.
        - assert (mx = 0) by lia. subst mx. change (inject_Z 0) with 0%Q in *. cbn [Zdigits2] in *. apply (Qmult_lt_r _ _ _ P). rewrite <- X.
          rewrite <- pow2_plus. unfold x. apply Qlt_le_trans with (1 * pow2 ex)%Q; [apply Qmult_lt_compat_r; [apply pow2_gt0|lra]|].
          rewrite Qmult_1_l. apply pow2_le. lia. }
      rewrite pow2_Z in U by lia. destruct (Z_le_gt_dec z (2 ^ 53)) as [?|G]; [assumption|].
      assert (G' : (inject_Z (2 ^ 53 + 1) <= inject_Z z)%Q) by (apply inject_le; lia). rewrite inject_Z_plus in G'. change (inject_Z 1) with 1%Q in G'. lra. }
    destruct (final_shift z e' (conj Z0 Hz53) Hmin) as (m & e2 & Ef & Ev & Hm0 & He2 & Hsh & Hn). rewrite Ef. cbn [shr_m].
    assert (Hhalf : ((1 # 2) * pow2 e' <= roundoff x)%Q).
    { unfold roundoff. destruct (Z_le_gt_dec (Zdigits2 mx + ex - 53) (-1074)) as [Hsub|Hnorm].
      - assert (e' = -1074) by (unfold e', fexp, emin; lia). assert (E1 : (pow2 (-1074) == 2 * pow2 (-1075))%Q) by (apply (pow2_1 (-1075))).
        rewrite H, E1. assert (0 <= x * pow2 (-53))%Q by (apply Qmult_le_0_compat; [exact Hx|apply Qlt_le_weak, pow2_gt0]). lra.
      - assert (E' : e' = Zdigits2 mx + ex - 53) by (unfold e', fexp, emin; lia). assert (Hp : 0 < mx).
        { destruct (Z_lt_le_dec 0 mx); [assumption|]. assert (mx = 0) by lia. subst mx. cbn [Zdigits2] in *. lia. }
        destruct (Hd Hp) as (D1 & _). assert (E1 : (pow2 e' == pow2 (Zdigits2 mx - 1 + ex) * pow2 (-52))%Q).
        { rewrite <- pow2_plus. f_equiv. lia. }
        assert (E2 : (pow2 (-52) == 2 * pow2 (-53))%Q) by (apply (pow2_1 (-53))). rewrite E1, E2.
        assert (P3 := pow2_gt0 (-53)). assert (P4 := pow2_gt0 (-1075)).
        assert (pow2 (Zdigits2 mx - 1 + ex) * pow2 (-53) <= x * pow2 (-53))%Q by (apply Qmult_le_compat_r; lra). lra. }
    assert (Hv1 : (inject_Z z * pow2 e' - (1 # 2) * pow2 e' <= x)%Q).
    { rewrite X. setoid_replace (inject_Z z * pow2 e' - (1 # 2) * pow2 e')%Q with ((inject_Z z - (1 # 2)) * pow2 e')%Q by ring. apply Qmult_le_compat_r; lra. }
    assert (Hv2 : (x <= inject_Z z * pow2 e' + (1 # 2) * pow2 e')%Q).
    { rewrite X. setoid_replace (inject_Z z * pow2 e' + (1 # 2) * pow2 e')%Q with ((inject_Z z + (1 # 2)) * pow2 e')%Q by ring. apply Qmult_le_compat_r; lra. }
    assert (Hbig : 971 < e2 -> (pow2 900 <= x)%Q).
    { intros G. assert (E' : e' = Zdigits2 mx + ex - 53) by (unfold e', fexp, emin in *; lia). assert (Hp : 0 < mx).
      { destruct (Z_lt_le_dec 0 mx); [assumption|]. assert (mx = 0) by lia. subst mx. cbn [Zdigits2] in *. lia. }
      destruct (Hd Hp) as (D1 & _). eapply Qle_trans; [|exact D1]. apply pow2_le. lia. }
    split.
    + destruct m as [|m|m]; [| |lia].
      * split; [exact I|]. left. split; [exact I|]. cbn [val]. change (inject_Z 0) with 0%Q in Ev. rewrite Qmult_0_l in Ev. lra.
      * destruct (Z.leb_spec e2 (1024 - 53)).
        -- split; [reflexivity|]. left. split; [exact I|]. cbn [val]. rewrite Ev. lra.
        -- split; [reflexivity|]. right. split; [reflexivity|]. apply Hbig. lia.
    + intros _ Hnormal. assert (Hp : 0 < mx).
      { destruct (Z_lt_le_dec 0 mx); [assumption|]. assert (mx = 0) by lia. subst mx. change (inject_Z 0) with 0%Q in *. cbn [Zdigits2] in *.
        exfalso. assert (x < pow2 ex)%Q. { unfold x. apply Qlt_le_trans with (1 * pow2 ex)%Q; [apply Qmult_lt_compat_r; [apply pow2_gt0|lra]|]. rewrite Qmult_1_l. apply Qle_refl. }
        assert (ex <= -1074) by (unfold e', fexp, emin in *; lia). assert (pow2 ex <= pow2 (-1022))%Q by (apply pow2_le; lia). lra. }
      assert (E' : e' = Zdigits2 mx + ex - 53).
      { destruct (Hd Hp) as (_ & D2). destruct (Z_le_gt_dec (Zdigits2 mx + ex) (-1022)) as [G|G]; [|unfold e', fexp, emin in *; lia].
        apply pow2_le in G. lra. }
      destruct (Hd Hp) as (D1 & _). assert (Hu' : (pow2 52 <= u')%Q).
      { apply (Qmult_le_r _ _ _ P). rewrite <- X. eapply Qle_trans; [|exact D1]. rewrite <- pow2_plus. apply pow2_le. lia. }
      rewrite pow2_Z in Hu' by lia. assert (Hz52 : 2 ^ 52 <= z).
      { destruct (Z_le_gt_dec (2 ^ 52) z); [assumption|]. exfalso. assert (G' : (inject_Z (z + 1) <= inject_Z (2 ^ 52))%Q) by (apply inject_le; lia).
        rewrite inject_Z_plus in G'. change (inject_Z 1) with 1%Q in G'. lra. }
      specialize (Hn Hz52). destruct m as [|m|m]; [lia| |lia]. destruct (Z.leb_spec e2 (1024 - 53)); [right|now left].
      exists m, e2. split; [reflexivity|exact Hn].
  - destruct HE as [->|HE]; [|lia]. split; [|lia].
    unfold f, binary_round_aux. rewrite shr_fexp_none by lia. cbn [shr_record_of_loc shr_m loc_of_shr_record round_nearest_even].
    rewrite shr_fexp_none by lia. cbn [shr_record_of_loc shr_m]. cbn in HL. destruct HL as (_ & HL).
    destruct mx as [|m|m]; [| |lia].
    + split; [exact I|]. left. split; [exact I|]. cbn [val]. change (inject_Z 0) with 0%Q in HL.
      assert (x == 0)%Q by (unfold x; rewrite HL; ring). lra.
    + destruct (Z.leb_spec ex (1024 - 53)).
      * split; [reflexivity|]. left. split; [exact I|]. cbn [val]. assert (x == inject_Z (Zpos m) * pow2 ex)%Q by (unfold x; rewrite HL; ring). lra.
      * split; [reflexivity|]. right. split; [reflexivity|]. unfold x. rewrite HL. apply Qle_trans with (1 * pow2 ex)%Q.
        -- rewrite Qmult_1_l. apply pow2_le. lia.
        -- apply Qmult_le_compat_r; [apply (inject_le 1); lia|apply Qlt_le_weak, pow2_gt0].
Qed.

Lemma exact_located m : located (shr_record_of_loc (Zpos m) loc_Exact) (inject_Z (Zpos m)).
Proof. cbn. split; [lia|reflexivity]. Qed.

Lemma shift_pos_value d m : Zpos (shift_pos d m) = Zpos m * 2 ^ Zpos d.
Proof.
  unfold shift_pos. induction d as [|d IH] using Pos.peano_ind; [simpl; lia|]. rewrite Pos.iter_succ, Pos2Z.inj_xO, IH.
  rewrite Pos2Z.inj_succ, Z.pow_succ_r by lia. lia.
Qed.

Definition normal (f : spec_float) : Prop := f = S754_infinity false \/ exists m e, f = S754_finite false m e /\ 2 ^ 52 <= Zpos m.

Lemma binary_round_rounded m e : let x := (inject_Z (Zpos m) * pow2 e)%Q in
  rounded (binary_round 53 1024 false m e) x /\ ((pow2 (-1022) <= x)%Q -> normal (binary_round 53 1024 false m e)).
Proof.
  intros x. unfold binary_round, shl_align. set (k := fexp 53 1024 (Zpos (digits2_pos m) + e)).
  destruct (k - e) as [|d|d] eqn:E.
  - destruct (round_aux_rounded (Zpos m) e loc_Exact _ (exact_located m)) as (A & B); [now left|]. split; [exact A|]. intros H. apply B; [|exact H].
    cbn [Zdigits2]. fold k. lia.
  - destruct (round_aux_rounded (Zpos m) e loc_Exact _ (exact_located m)) as (A & B); [now left|]. split; [exact A|]. intros H. apply B; [|exact H].
    cbn [Zdigits2]. fold k. lia.
  - assert (Ed : Zpos (digits2_pos (shift_pos d m)) = Zpos (digits2_pos m) + Zpos d) by (apply digits2_mul; [apply shift_pos_value|lia]).
    assert (Ek : fexp 53 1024 (Zdigits2 (Zpos (shift_pos d m)) + k) = k).
    { cbn [Zdigits2]. rewrite Ed. replace (Zpos (digits2_pos m) + Zpos d + k) with (Zpos (digits2_pos m) + e) by lia. reflexivity. }
    assert (Ex : (inject_Z (Zpos (shift_pos d m)) * pow2 k == x)%Q).
    { rewrite shift_pos_value, inject_Z_mult, <- pow2_Z by lia. unfold x. rewrite <- Qmult_assoc, <- pow2_plus. f_equiv. f_equiv. lia. }
    destruct (round_aux_rounded (Zpos (shift_pos d m)) k loc_Exact _ (exact_located _)) as (A & B); [now left|].
    assert (RE : forall f y y', (y == y')%Q -> rounded f y -> rounded f y').
    { intros f y y' Ey (H1 & [(H2 & H3 & H4)|(H2 & H3)]); (split; [exact H1|]); [left|right]; (split; [exact H2|]); unfold roundoff in *; rewrite <- Ey; [split; assumption|assumption]. }
    split; [exact (RE _ _ _ Ex A)|]. intros H. apply B; [lia|]. rewrite Ex. exact H.
Qed.

Lemma rounded_eq f y y' : (y == y')%Q -> rounded f y -> rounded f y'.
Proof.
  intros Ey (H1 & [(H2 & H3 & H4)|(H2 & H3)]); (split; [exact H1|]); [left|right]; (split; [exact H2|]); unfold roundoff in *; rewrite <- Ey; [split; assumption|assumption].
Qed.

Lemma rounded_zero f : is_zero f = true -> rounded f 0.
Proof.
  destruct f; try discriminate. intros _. split; [exact I|]. left. split; [exact I|]. unfold roundoff. cbn [val].
  assert (P := pow2_gt0 (-1075)). lra.
Qed.

Lemma rounded_self f : fnonneg f -> finite f -> rounded f (val f).
Proof.
  intros N F. split; [exact N|]. left. split; [exact F|]. assert (0 < roundoff (val f))%Q; [|lra]. unfold roundoff.
  assert (P1 := pow2_gt0 (-1075)). assert (0 <= val f * pow2 (-53))%Q by (apply Qmult_le_0_compat; [now apply val_nonneg|apply Qlt_le_weak, pow2_gt0]). lra.
Qed.

(** * Operations *)
Lemma fmul_rounded a b : fnonneg a -> finite a -> fnonneg b -> finite b -> rounded (fmul a b) (val a * val b).
Proof.
  intros Na Fa Nb Fb. destruct a as [sa| | |sa ma ea]; try contradiction; destruct b as [sb| | |sb mb eb]; try contradiction.
  - eapply rounded_eq; [|now apply rounded_zero]. cbn [val]. ring.
  - eapply rounded_eq; [|now apply rounded_zero]. cbn [val]. ring.
  - eapply rounded_eq; [|now apply rounded_zero]. cbn [val]. ring.
  - cbn in Na, Nb. subst sa sb. unfold fmul, SFmul. cbn [xorb val].
    eapply rounded_eq; [|apply (round_aux_rounded (Zpos (ma * mb)) (ea + eb) loc_Exact _ (exact_located _)); now left].
    rewrite Pos2Z.inj_mul, inject_Z_mult, pow2_plus. ring.
Qed.

Lemma shl_align_value m e e' : e' <= e -> let '(m', e2) := shl_align m e e' in (inject_Z (Zpos m') * pow2 e' == inject_Z (Zpos m) * pow2 e)%Q.
Proof.
  intros H. unfold shl_align. destruct (e' - e) as [|d|d] eqn:E; [|lia|].
  - replace e' with e by lia. reflexivity.
  - rewrite shift_pos_value, inject_Z_mult, <- pow2_Z by lia. rewrite <- Qmult_assoc, <- pow2_plus. f_equiv. f_equiv. lia.
Qed.

Lemma fadd_rounded a b : fnonneg a -> finite a -> fnonneg b -> finite b -> rounded (fadd a b) (val a + val b).
Proof.
  intros Na Fa Nb Fb. destruct a as [sa| | |sa ma ea]; try contradiction; destruct b as [sb| | |sb mb eb]; try contradiction.
  - eapply rounded_eq; [|apply rounded_zero; unfold fadd, SFadd; now destruct (Bool.eqb sa sb)]. cbn [val]. ring.
  - eapply rounded_eq; [|apply (rounded_self (S754_finite sb mb eb)); assumption]. cbn -[inject_Z pow2]. ring.
  - eapply rounded_eq; [|apply (rounded_self (S754_finite sa ma ea)); assumption]. cbn -[inject_Z pow2]. ring.
  - cbn in Na, Nb. subst sa sb. unfold fadd, SFadd. cbn [val cond_Zopp].
    assert (A := shl_align_value ma ea (Z.min ea eb) ltac:(lia)). assert (B := shl_align_value mb eb (Z.min ea eb) ltac:(lia)).
    destruct (shl_align ma ea (Z.min ea eb)) as (m1 & e1). destruct (shl_align mb eb (Z.min ea eb)) as (m2 & e2). cbn [fst].
    rewrite <- Pos2Z.inj_add. cbn [binary_normalize]. eapply rounded_eq; [|apply binary_round_rounded].
    rewrite Pos2Z.inj_add, inject_Z_plus, <- A, <- B. ring.
Qed.

(** Division. *)
Lemma Zdigits2_bounds m : 0 < m -> 2 ^ (Zdigits2 m - 1) <= m < 2 ^ Zdigits2 m.
Proof. intros H. destruct m as [|m|m]; try lia. cbn [Zdigits2]. pose proof (digits2_bound m). lia. Qed.

Lemma new_location_located q r d : 0 <= q -> 0 <= r < Zpos d ->
  located (shr_record_of_loc q (new_location (Zpos d) r)) (inject_Z q + (r # d)).
Proof.
  intros Hq Hr.
  assert (H0 : (r # d == 0)%Q <-> r = 0) by (unfold Qeq; cbn; lia).
  assert (L : (0 < r # d)%Q <-> 0 < r) by (unfold Qlt; cbn; lia).
  assert (L1 : (r # d < 1)%Q) by (unfold Qlt; cbn; lia).
  assert (C : forall c, Z.compare (2 * r) (Zpos d) = c -> match c with Lt => r # d < 1 # 2 | Eq => r # d == 1 # 2 | Gt => 1 # 2 < r # d end%Q).
  { intros c <-. destruct (Z.compare_spec (2 * r) (Zpos d)); unfold Qlt, Qeq; cbn; lia. }
  unfold new_location, new_location_even, new_location_odd.
  assert (ZB : Zeq_bool r 0 = true -> r = 0) by (intros H; now apply Zeq_bool_eq). assert (ZB' : Zeq_bool r 0 = false -> r <> 0) by (intros H; now apply Zeq_bool_neq).
  destruct (Z.even (Zpos d)) eqn:Ev; cbv beta; (destruct (Zeq_bool r 0) eqn:E0; [specialize (ZB eq_refl)|specialize (ZB' eq_refl)]).
  - cbn [shr_record_of_loc located]. split; [exact Hq|]. apply H0 in ZB. rewrite ZB. ring.
  - assert (P : (0 < r # d)%Q) by (apply L; lia).
    destruct (Z.compare (2 * r) (Zpos d)) eqn:Ec; specialize (C _ eq_refl); cbv beta iota in C; cbn [shr_record_of_loc located]; (split; [exact Hq|]); lra.
  - cbn [shr_record_of_loc located]. split; [exact Hq|]. apply H0 in ZB. rewrite ZB. ring.
  - assert (P : (0 < r # d)%Q) by (apply L; lia).
    assert (O : 2 * r <> Zpos d). { intros O. rewrite <- O in Ev. rewrite Z.even_mul in Ev. discriminate. }
    destruct (Z.compare_spec (2 * r + 1) (Zpos d)).
    + cbn [shr_record_of_loc located]. split; [exact Hq|]. assert (r # d < 1 # 2)%Q by (unfold Qlt; cbn; lia). lra.
    + cbn [shr_record_of_loc located]. split; [exact Hq|]. assert (r # d < 1 # 2)%Q by (unfold Qlt; cbn; lia). lra.
    + cbn [shr_record_of_loc located]. split; [exact Hq|]. assert (1 # 2 < r # d)%Q by (unfold Qlt; cbn; lia). lra.
Qed.

Lemma float_of_ratio_rounded n d : rounded (float_of_ratio n d) (Zpos n # d) /\ ((pow2 (-1022) <= Zpos n # d)%Q -> normal (float_of_ratio n d)).
Proof.
  unfold float_of_ratio, SFdiv_core_binary. set (e' := Z.min (fexp 53 1024 (Zdigits2 (Zpos n) + 0 - (Zdigits2 (Zpos d) + 0))) (0 - 0)).
  assert (He : e' <= 0) by (unfold e'; lia).
  assert (Es : 0 - 0 - e' = - e') by lia. rewrite Es. set (m' := match - e' with 0 => Zpos n | Zpos _ => Z.shiftl (Zpos n) (- e') | Zneg _ => 0 end).
  assert (Hm : m' = Zpos n * 2 ^ (- e')).
  { unfold m'. destruct (- e') as [|k|k] eqn:E; [cbn; lia|apply Z.shiftl_mul_pow2; lia|lia]. }
  assert (P := pow2_pos (- e') ltac:(lia)).
  pose proof (Z_div_mod m' (Zpos d) ltac:(lia)) as D. destruct (Z.div_eucl m' (Zpos d)) as [q r]. destruct D as (D & Hr).
  assert (Hq : 0 <= q) by nia.
  assert (Ex : ((inject_Z q + (r # d)) * pow2 e' == Zpos n # d)%Q).
  { assert (Eq : (inject_Z q + (r # d) == m' # d)%Q) by (unfold Qeq, Qplus, inject_Z; cbn; lia). rewrite Eq.
    assert (Em : (m' # d == (Zpos n # d) * pow2 (- e'))%Q). { rewrite pow2_Z by lia. unfold Qeq, Qmult, inject_Z; cbn [Qnum Qden]. rewrite Hm. lia. }
    rewrite Em, <- Qmult_assoc, pow2_opp. ring. }
  assert (Hf : e' <= fexp 53 1024 (Zdigits2 q + e')).
  { destruct (Z_le_gt_dec e' (-1074)); [unfold fexp, emin; lia|].
    (* q has enough digits *)
    assert (Fe : fexp 53 1024 (Zdigits2 (Zpos n) + 0 - (Zdigits2 (Zpos d) + 0)) = Zdigits2 (Zpos n) - Zdigits2 (Zpos d) - 53 \/ e' = -1074) by (unfold e', fexp, emin in *; lia).
    destruct Fe as [Fe|Fe]; [|unfold fexp, emin; lia].
    assert (Be : e' <= Zdigits2 (Zpos n) - Zdigits2 (Zpos d) - 53) by (unfold e'; rewrite Fe; lia).
    set (dn := Zdigits2 (Zpos n)) in *. set (dd := Zdigits2 (Zpos d)) in *. set (j := dn - 1 - dd - e'). assert (Hj : 52 <= j) by (unfold j; lia).
    destruct (Zdigits2_bounds (Zpos n) ltac:(lia)) as (N1 & N2). destruct (Zdigits2_bounds (Zpos d) ltac:(lia)) as (D1 & D2). fold dn in N1, N2. fold dd in D1, D2.
    assert (Gd : 0 < dd) by (unfold dd; cbn; lia). assert (Gn : 0 < dn) by (unfold dn; cbn; lia).
    assert (Hq2 : 2 ^ j <= q).
    { destruct (Z_le_gt_dec (2 ^ j) q); [assumption|]. exfalso. assert (m' < 2 ^ j * Zpos d) by nia.
      assert (2 ^ (dn - 1) * 2 ^ (- e') <= m') by (rewrite Hm; nia). rewrite <- Z.pow_add_r in H0 by lia.
      assert (2 ^ j * Zpos d <= 2 ^ j * 2 ^ dd) by (apply Z.mul_le_mono_nonneg_l; [apply Z.pow_nonneg; lia|lia]). rewrite <- Z.pow_add_r in H1 by lia.
      replace (j + dd) with (dn - 1 + - e') in H1 by (unfold j; lia). lia. }
    assert (0 < q) by (pose proof (pow2_pos j ltac:(lia)); lia).
    destruct (Zdigits2_bounds q H) as (Q1 & Q2). assert (j < Zdigits2 q) by (apply (Z.pow_lt_mono_r_iff 2); [lia| |lia]; destruct q; cbn; lia).
    unfold fexp, emin. lia. }
  destruct (round_aux_rounded q e' (new_location (Zpos d) r) _ (new_location_located q r d Hq ltac:(lia))) as (A & B); [now right|].
  split; [exact (rounded_eq _ _ _ Ex A)|]. intros H. apply B; [exact Hf|]. rewrite Ex. exact H.
Qed.
