(** The sums of the duration parsers. *)
From Verif Require Import Base M_Dec M_Schema M_Duration S_Duration P_Float P_DurFloat P_DurRound P_Duration.
From Coq Require Import String List ZArith NArith Bool Lia Floats.SpecFloat Zpower.
Import ListNotations.
Open Scope Z_scope.

(** ** Fractions of seconds *)

Lemma num_go_zeros s acc : (forall c, In c s -> c = 48%N) -> num_go acc s = (acc * 10 ^ N.of_nat (length s))%N.
Proof.
  revert acc. induction s as [|c s IH]; intros acc H; simpl num_go.
  - simpl. lia.
  - rewrite IH by (intros; apply H; right; assumption).
    rewrite (H c) by (left; reflexivity). simpl length. rewrite Nat2N.inj_succ, N.pow_succ_r by lia. lia.
Qed.

Lemma lstrip0_num s : num_of (lstrip0 s) = num_of s.
Proof.
  unfold num_of. induction s as [|c s IH]; [reflexivity|]. simpl lstrip0.
  destruct (N.eqb_spec c 48) as [->|]; [|reflexivity]. rewrite IH. reflexivity.
Qed.

Lemma lstrip0_nil s : lstrip0 s = [] -> num_of s = 0%N.
Proof. intros H. rewrite <- lstrip0_num, H. reflexivity. Qed.

Lemma fraction_units_spec k f : (length f <= k)%nat ->
  fraction_units k (Some f) = Some (Z.of_N (num_of f) * 10 ^ Z.of_nat (k - length f)).
Proof.
  intros H. unfold fraction_units. destruct (Nat.ltb_spec k (length f)); [lia|].
  destruct (lstrip0 f) as [|c t] eqn:E.
  - apply lstrip0_nil in E. rewrite E. reflexivity.
  - rewrite <- E, lstrip0_num. reflexivity.
Qed.

Lemma fraction_units_iff k o us : fraction_units k (fraction_of o) = Some us <->
  (places o <= k)%nat /\ us + seconds_of o * 10 ^ Z.of_nat k = seconds_units k o.
Proof.
  destruct o as [[ds [f|]]|]; simpl places; simpl fraction_of; unfold seconds_of, seconds_units.
  - destruct (Nat.leb_spec (length f) k).
    + rewrite fraction_units_spec by assumption. split.
      * intros E; injection E as <-. split; [assumption|lia].
      * intros [_ E]. f_equal. lia.
    + unfold fraction_units. destruct (Nat.ltb_spec k (length f)); [|lia]. split; [discriminate|lia].
  - simpl. split; [intros E; injection E as <-|]; [split; lia|]. intros [_ E]. f_equal. lia.
  - simpl. split; [intros E; injection E as <-; lia|]. intros [_ E]. f_equal. lia.
Qed.

Lemma fraction_units_nonneg k o us : fraction_units k o = Some us -> 0 <= us.
Proof.
  destruct o as [f|]; unfold fraction_units.
  - destruct (k <? length f)%nat; [discriminate|]. destruct (lstrip0 f) eqn:E; intros H; injection H as <-; [lia|].
    apply Z.mul_nonneg_nonneg; [lia|]. apply Z.pow_nonneg; lia.
  - intros H; injection H as <-; lia.
Qed.

Lemma seconds_of_nonneg o : 0 <= seconds_of o.
Proof. destruct o as [[ds fs]|]; simpl; lia. Qed.

(** ** Parts as floats *)

Lemma float_of_ratio_nonneg n d : fnonneg (float_of_ratio n d).
Proof.
  unfold float_of_ratio, SFdiv_core_binary.
  set (s := 0 - 0 - _). set (m' := match s with 0 => _ | Zpos _ => _ | Zneg _ => _ end).
  assert (Hm : 0 <= m').
  { unfold m'. destruct s; [lia| |lia]. apply Z.shiftl_nonneg. lia. }
  pose proof (Z_div_mod m' (Zpos d) ltac:(lia)) as D. destruct (Z.div_eucl m' (Zpos d)) as [q r].
  apply round_aux_nonneg. destruct D as [D1 D2]. nia.
Qed.

Lemma part_nonneg o : fnonneg (part_value o).
Proof.
  destruct o as [[ds fs]|]; [|exact I]. unfold part_value, float_or_zero, float_of_number.
  destruct (num_of _) as [|p]; [exact I|]. destruct (10 ^ _)%N as [|q]; [exact I|].
  destruct (q =? 1)%positive; [apply binary_round_nonneg|apply float_of_ratio_nonneg].
Qed.

Lemma const_ok c : In c [c6e10; c3_6e12; c24; c7; c30_436875; c365_2425] ->
  fnonneg c /\ finite c /\ (forall s, c <> S754_zero s).
Proof.
  intros H. repeat destruct H as [<-|H]; try contradiction; (split; [reflexivity|]); (split; [exact I|]); discriminate.
Qed.

Lemma fmul_const f c : fnonneg f -> In c [c6e10; c3_6e12; c24; c7; c30_436875; c365_2425] -> fnonneg (fmul f c).
Proof. intros Hf Hc. destruct (const_ok c Hc) as (A & B & C). apply fmul_nonneg; assumption. Qed.

Lemma products_nonneg g : Forall fnonneg (nanosecond_products g).
Proof.
  unfold nanosecond_products. repeat apply Forall_cons; try apply Forall_nil;
    repeat (apply fmul_const; [|simpl; tauto]); apply part_nonneg.
Qed.

(** ** Go: additions *)

Lemma trunc_floor f z : floor_is f z -> trunc f = z.
Proof. intros H. apply modf_floor in H. destruct H as [fr H]. unfold trunc. rewrite H. reflexivity. Qed.

Lemma add_duration_iff left right d : 0 <= left <= max_int64 -> fnonneg right ->
  add_duration left right = Some d <-> exists z, floor_is right z /\ d = left + z /\ d <= max_int64.
Proof.
  intros Hl Hr. unfold add_duration. split.
  - destruct (float_ge right (2 ^ 63)) eqn:E; [discriminate|].
    assert (Hfin : finite right).
    { destruct right as [| s | |]; simpl in *; try exact I; try contradiction. subst s. discriminate. }
    destruct (floor_exists right Hr Hfin) as (z & Hz & Hfl). rewrite (trunc_floor _ _ Hfl).
    destruct (Z.ltb_spec (max_int64 - left) z); [discriminate|]. intros H'; injection H' as <-.
    exists z. repeat split; [exact Hfl|lia].
  - intros (z & Hfl & -> & Hd). rewrite (float_ge_floor _ _ _ Hfl). destruct (floor_finite _ _ Hfl) as [_ Hz].
    destruct (Z.leb_spec (2 ^ 63) z); [exfalso; unfold max_int64 in *; lia|].
    rewrite (trunc_floor _ _ Hfl). destruct (Z.ltb_spec (max_int64 - left) z); [lia|]. reflexivity.
Qed.

Fixpoint add_list (left : Z) (rs : list spec_float) : option Z :=
  match rs with
  | [] => Some left
  | r :: rs' => bindo (add_duration left r) (fun d => add_list d rs')
  end.

Lemma add_list_iff rs : forall left d, 0 <= left <= max_int64 -> Forall fnonneg rs ->
  add_list left rs = Some d <-> exists zs, Forall2 floor_is rs zs /\ d = left + sumZ zs /\ d <= max_int64.
Proof.
  induction rs as [|r rs IH]; intros left d Hl Hrs; simpl.
  - split.
    + intros H; injection H as <-. exists []. split; [constructor|]. simpl. lia.
    + intros (zs & H & -> & _). inversion H. subst. simpl. f_equal. lia.
  - inversion Hrs as [|? ? Hr Hrs']; subst. split.
    + destruct (add_duration left r) as [d1|] eqn:E; simpl; [|discriminate].
      apply add_duration_iff in E; [|exact Hl|exact Hr]. destruct E as (z & Hz & -> & Hd1).
      destruct (floor_finite _ _ Hz) as [_ Hz0].
      intros H. apply IH in H; [|lia|exact Hrs']. destruct H as (zs & Hzs & -> & Hd).
      exists (z :: zs). split; [constructor; assumption|]. simpl. unfold sumZ in *. lia.
    + intros (zs & Hzs & -> & Hd). inversion Hzs as [|? z ? zs' Hz Hzs']; subst.
      destruct (floor_finite _ _ Hz) as [_ Hz0].
      assert (Hs : 0 <= sumZ zs').
      { clear - Hzs'. induction Hzs' as [|r z rs zs Hz _ IH]; simpl; [lia|].
        destruct (floor_finite _ _ Hz). unfold sumZ in *. lia. }
      assert (E : add_duration left r = Some (left + z)).
      { apply add_duration_iff; [exact Hl|exact Hr|]. exists z. simpl in Hd. unfold sumZ in *.
        repeat split; [exact Hz|lia]. }
      rewrite E. simpl. apply IH; [simpl in Hd; unfold sumZ in *; lia|exact Hrs'|].
      exists zs'. split; [exact Hzs'|]. simpl in *. unfold sumZ in *. lia.
Qed.

Lemma sum_ns_iff g ns total : 0 <= ns ->
  sum_ns g ns = Some total <->
  exists zs, Forall2 floor_is (nanosecond_products g) zs /\
             total = ns + seconds_of (g_seconds g) * 1000000000 + sumZ zs /\ total <= max_int64.
Proof.
  intros Hns. unfold sum_ns. pose proof (seconds_of_nonneg (g_seconds g)) as Hs.
  set (sec := seconds_of (g_seconds g)) in *.
  assert (Hsum : forall zs, Forall2 floor_is (nanosecond_products g) zs -> 0 <= sumZ zs).
  { intros zs H. induction H as [|r z rs zs Hz _ IH]; simpl; [lia|]. destruct (floor_finite _ _ Hz). unfold sumZ in *. lia. }
  destruct (Z.ltb_spec (max_int64 / 1000000000) sec) as [H1|H1].
  { split; [discriminate|]. intros (zs & Hzs & -> & Ht). exfalso. specialize (Hsum zs Hzs).
    assert (sec <= max_int64 / 1000000000) by (apply Z.div_le_lower_bound; lia). lia. }
  destruct (Z.ltb_spec (max_int64 - ns) (sec * 1000000000)) as [H2|H2].
  { split; [discriminate|]. intros (zs & Hzs & -> & Ht). exfalso. specialize (Hsum zs Hzs). lia. }
  match goal with |- ?L = Some total <-> _ =>
    replace L with (add_list (ns + sec * 1000000000) (nanosecond_products g)) end.
  { apply add_list_iff; [lia|apply products_nonneg]. }
  unfold nanosecond_products, part_value. cbn [add_list].
  repeat match goal with |- context [bindo (add_duration ?a ?b) _] =>
    destruct (add_duration a b); cbn [bindo]; [|reflexivity] end; reflexivity.
Qed.
