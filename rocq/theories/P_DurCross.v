(** Durations written in one language and read in another. *)
From Coq Require Import String List ZArith NArith Bool Lia Floats.SpecFloat.
From Verif Require Import Base M_Dec M_Schema M_Duration S_Duration P_Float P_DurFloat P_DurRound P_Duration P_DurSum P_DurText P_DurPrint.
Import ListNotations.
Open Scope Z_scope.

Lemma units_ns o : (places o <= 6)%nat -> seconds_units 9 o = seconds_units 6 o * 1000.
Proof.
  destruct o as [[ds [f|]]|]; cbn [places seconds_units]; intros H.
  - replace (Z.of_nat (9 - length f)) with (Z.of_nat (6 - length f) + 3) by lia. rewrite Z.pow_add_r by lia.
    change (10 ^ Z.of_nat 9) with (10 ^ Z.of_nat 6 * 1000). change (10 ^ 3) with 1000. ring.
  - change (10 ^ Z.of_nat 9) with (10 ^ Z.of_nat 6 * 1000). ring.
  - reflexivity.
Qed.

Lemma exact_ns_us w d h mi o : (places o <= 6)%nat -> exact_ns w d h mi o = exact_us w d h mi o * 1000.
Proof. intros H. unfold exact_ns, exact_us. rewrite units_ns by exact H. ring. Qed.

Lemma py_to_go us : go_dur_from (py_dur_to us) = if Z.abs us * 1000 <? 2 ^ 63 then Some (us * 1000) else None.
Proof.
  destruct (py_text_groups us) as (D & H & M & se & P1 & P2 & P3 & Hse & Hp & -> & _ & E).
  rewrite (go_exact (printed (us <? 0) D H M se) _ 0 D H M); try reflexivity;
    try (apply count_integral; assumption); [|apply print_duration; exact Hse|simpl g_seconds; lia].
  simpl g_seconds. rewrite exact_ns_us, E by exact Hp. cbv zeta. simpl negative. unfold max_int64.
  destruct (Z.leb_spec (Z.abs us * 1000) 9223372036854775807); destruct (Z.ltb_spec (Z.abs us * 1000) (2 ^ 63)); try lia; [|reflexivity].
  f_equal. destruct (Z.ltb_spec us 0); lia.
Qed.

Lemma py_to_cpp us d : cpp_dur_from false (py_dur_to us) = CppOk d <-> Z.abs us * 1000 < 2 ^ 63 /\ d = us * 1000.
Proof.
  destruct (py_text_groups us) as (D & H & M & se & P1 & P2 & P3 & Hse & Hp & -> & _ & E).
  rewrite (cpp_exact (printed (us <? 0) D H M se) _ 0 D H M); try reflexivity;
    try (apply count_integral; assumption); [|apply print_duration; exact Hse|simpl g_seconds; lia].
  simpl g_seconds. rewrite exact_ns_us, E by exact Hp. simpl negative. unfold max_int64.
  destruct (Z.ltb_spec us 0); lia.
Qed.

(** The last digit of a stripped fraction is not zero. *)
Lemma lstrip0_head s : match lstrip0 s with [] => True | c :: _ => c <> 48%N end.
Proof.
  induction s as [|c s IH]; simpl; [exact I|].
  destruct (c =? 48)%N eqn:E; [exact IH|]. apply N.eqb_neq in E. exact E.
Qed.

Lemma rstrip0_last s : digits s -> rstrip0 s <> [] -> (num_of (rstrip0 s) mod 10 <> 0)%N.
Proof.
  intros Hd Hn. unfold rstrip0 in *. pose proof (lstrip0_head (rev s)) as H.
  destruct (lstrip0_app (rev s)) as (z & E & _).
  destruct (lstrip0 (rev s)) as [|c u]; [exfalso; apply Hn; reflexivity|].
  assert (Hc : In c s).
  { apply in_rev. rewrite E. apply in_or_app. right. left. reflexivity. }
  unfold digits in Hd. rewrite Forall_forall in Hd. specialize (Hd c Hc). simpl in Hd.
  simpl rev. unfold num_of. rewrite num_go_app. cbn [num_go]. set (a := num_go 0 (rev u)).
  rewrite N.add_comm, N.mod_add by lia. rewrite N.mod_small; lia.
Qed.

Lemma stripped_places n : 0 < n < 1000000000 ->
  ((length (rstrip0 (pad 9 (Z.to_N n))) <= 6)%nat <-> n mod 1000 = 0).
Proof.
  intros Hn. set (s := pad 9 (Z.to_N n)).
  assert (L : length s = 9%nat) by (apply pad_length; [change (10 ^ N.of_nat 9)%N with 1000000000%N|]; lia).
  pose proof (rstrip0_num s) as E. rewrite L in E. unfold s in E at 1. rewrite pad_num in E.
  pose proof (rstrip0_length s) as Ll. rewrite L in Ll.
  assert (Hne : rstrip0 s <> []) by (intros C; rewrite C in E; simpl in E; lia).
  pose proof (rstrip0_last s (pad_digits 9 _) Hne) as Hl.
  set (m := num_of (rstrip0 s)) in *. set (k := length (rstrip0 s)) in *.
  assert (En : n = Z.of_N m * 10 ^ Z.of_nat (9 - k)).
  { rewrite <- (Z2N.id n) by lia. rewrite E, N2Z.inj_mul, N2Z.inj_pow, nat_N_Z. reflexivity. }
  assert (Hm : Z.of_N m mod 10 <> 0).
  { intros C. apply Hl. apply N2Z.inj. rewrite N2Z.inj_mod. exact C. }
  split.
  - intros Hk. replace (Z.of_nat (9 - k)) with (Z.of_nat (6 - k) + 3) in En by lia. rewrite Z.pow_add_r in En by lia.
    change (10 ^ 3) with 1000 in En. rewrite En, Z.mul_assoc. apply Z.mod_mul. lia.
  - intros H0. destruct (Nat.leb_spec k 6) as [|Hk]; [assumption|exfalso]. apply Hm.
    assert (K : (9 - k = 0 \/ 9 - k = 1 \/ 9 - k = 2)%nat) by lia.
    apply Z.mod_divide in H0; [|lia]. destruct H0 as [q Hq].
    apply Z.mod_divide; [lia|].
    destruct K as [K|[K|K]]; rewrite K in En.
    + change (10 ^ Z.of_nat 0) with 1 in En. exists (100 * q). lia.
    + change (10 ^ Z.of_nat 1) with 10 in En. exists (10 * q). lia.
    + change (10 ^ Z.of_nat 2) with 100 in En. exists q. lia.
Qed.

Lemma seconds_places sec n : 0 <= n < 1000000000 ->
  ((places (seconds_part 9 sec n) <= 6)%nat <-> n mod 1000 = 0).
Proof.
  intros Hn. unfold seconds_part. destruct (Z.ltb_spec 0 n).
  - cbn [places]. apply stripped_places. lia.
  - replace n with 0 by lia. split; [reflexivity|]. intros _. unfold count. destruct (0 <? sec); simpl; lia.
Qed.

Lemma go_to_py d : - 2 ^ 63 < d < 2 ^ 63 ->
  py_dur_from (go_dur_to d) = if d mod 1000 =? 0 then Some (d / 1000) else None.
Proof.
  intros Hd. rewrite go_dur_to_text by (unfold min_int64, max_int64; lia).
  unfold ns_text. cbv zeta. destruct (quot_rem_split (Z.abs d) ltac:(lia)) as (P1 & P2 & P3 & P4 & P5 & E).
  set (days := Z.quot (Z.abs d) _) in *. set (r1 := Z.rem (Z.abs d) _) in *.
  set (hours := Z.quot r1 _) in *. set (r2 := Z.rem r1 _) in *.
  set (minutes := Z.quot r2 _) in *. set (r3 := Z.rem r2 _) in *.
  set (seconds := Z.quot r3 _) in *. set (nanos := Z.rem r3 _) in *.
  destruct (seconds_part_ok 9 seconds nanos P4) as (Hse & Hp & Hu); [change (10 ^ Z.of_nat 9) with 1000000000; lia|lia|].
  pose proof (seconds_places seconds nanos ltac:(lia)) as Pl.
  set (se := seconds_part 9 seconds nanos) in *.
  pose proof (print_duration (d <? 0) days hours minutes se Hse) as Hdur.
  assert (Hmod : nanos mod 1000 = 0 <-> d mod 1000 = 0).
  { split; intros Hm; (apply Z.mod_divide in Hm; [|lia]); destruct Hm as [q Hq]; (apply Z.mod_divide; [lia|]).
    - exists (Z.sgn d * (days * 86400000000 + hours * 3600000000 + minutes * 60000000 + seconds * 1000000 + q)).
      destruct (Z.sgn_spec d) as [[? ->]|[[? ->]|[? ->]]]; lia.
    - exists (Z.abs q - (days * 86400000000 + hours * 3600000000 + minutes * 60000000 + seconds * 1000000)). lia. }
  destruct (Z.eqb_spec (d mod 1000) 0) as [H0|H0].
  - assert (Hp6 : (places se <= 6)%nat) by (apply Pl, Hmod, H0).
    rewrite (py_exact (printed (d <? 0) days hours minutes se) _ 0 days hours minutes); try reflexivity;
      try (apply count_integral; assumption); [|left; exact Hdur|exact Hp6].
    cbv zeta. cbn [printed g_seconds negative].
    pose proof (exact_ns_us 0 days hours minutes se Hp6) as Ex. set (u := exact_us 0 days hours minutes se) in *.
    assert (Eu : Z.abs d = u * 1000).
    { rewrite <- Ex. unfold exact_ns. rewrite Hu. change (10 ^ Z.of_nat 9) with 1000000000. lia. }
    assert (Es : signed (d <? 0) u = d / 1000).
    { unfold signed. destruct (Z.ltb_spec d 0).
      - replace d with (- u * 1000) by lia. rewrite Z.div_mul by lia. reflexivity.
      - replace d with (u * 1000) by lia. rewrite Z.div_mul by lia. reflexivity. }
    rewrite Es. assert (Hb : - 9223372036854776 <= d / 1000 <= 9223372036854776).
    { unfold signed in Es. destruct (d <? 0); lia. }
    assert (T : forall z, - 9223372036854776 <= z <= 9223372036854776 -> timedelta_ok z = true).
    { intros z Hz. unfold timedelta_ok, us_per_day. apply andb_true_iff. split; [apply Z.leb_le|apply Z.ltb_lt]; lia. }
    rewrite !T by lia. reflexivity.
  - destruct (py_dur_from _) as [us|] eqn:Ef; [exfalso|reflexivity].
    apply py_dur_from_range in Ef as (_ & g & Hg & Hpl).
    assert (Eg : match_duration end_python (print_text (d <? 0) days hours minutes se) = Some g) by (apply match_python_iff; exact Hg).
    assert (Eg' : match_duration end_python (print_text (d <? 0) days hours minutes se) = Some (printed (d <? 0) days hours minutes se))
      by (apply match_python_iff; left; exact Hdur).
    rewrite Eg in Eg'. injection Eg' as ->. apply H0, Hmod, Pl. exact Hpl.
Qed.

Lemma go_is_cpp d : - 2 ^ 63 < d < 2 ^ 63 -> cpp_dur_to d = CppOk (go_dur_to d).
Proof.
  intros H. rewrite go_dur_to_text, cpp_dur_to_text by (unfold min_int64, max_int64; lia). reflexivity.
Qed.
