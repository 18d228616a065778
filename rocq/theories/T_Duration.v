(** C11-C14: durations and their texts. *)
From Verif Require Import Base M_Dec M_Schema M_Duration S_Duration P_Float P_DurFloat P_DurRound P_Duration P_DurSum P_DurText P_DurPrint.
From Coq Require Import String List ZArith NArith Bool Lia Floats.SpecFloat.
Import ListNotations.
Open Scope Z_scope.

(** ** C11: Python *)

(** From [timedelta.min] to [timedelta.max]. *)
Theorem C11_python_duration_round_trip us :
  -999999999 * 86400000000 <= us < 1000000000 * 86400000000 ->
  py_dur_from (py_dur_to us) = Some us.
Proof.
  intros H. apply py_round_trip. unfold timedelta_ok, us_per_day.
  apply andb_true_iff. split; [apply Z.leb_le|apply Z.ltb_lt]; lia.
Qed.

(** The text is an ISO 8601 duration, negative exactly if the value is, except for zero. *)
Theorem C11_python_duration_iso_partial us :
  us <> 0 -> exists g, iso_duration g (py_dur_to us) /\ negative g = (us <? 0).
Proof.
  intros H. destruct (py_text_groups us) as (D & Hh & M & se & P1 & P2 & P3 & Hse & Hp & -> & Hpos & E).
  exists (printed (us <? 0) D Hh M se). split; [|reflexivity].
  apply print_iso; [exact Hse|exact (Hpos H)].
Qed.

(** Zero is written as "P", which has no component and is no ISO 8601 duration. *)
Theorem C11_python_zero_duration_refuted :
  py_dur_to 0 = s_ "P" /\ forall g, ~ iso_duration g (py_dur_to 0).
Proof.
  split; [reflexivity|]. intros g (Hd & (o & Ho & Hs) & _).
  change (py_dur_to 0) with (s_ "P") in Hd.
  assert (E : match_duration end_strict (s_ "P") = Some (Groups false None None None None None None None)) by reflexivity.
  apply match_strict_iff in E. rewrite (duration_unique g _ _ Hd E) in Ho.
  simpl in Ho. intuition congruence.
Qed.

Example C11_demo :
  py_dur_to (-93784000020) = s_ "-P1DT2H3M4.00002S" /\ py_dur_from (s_ "-P1DT2H3M4.00002S") = Some (-93784000020) /\
  py_dur_to (- 999999999 * 86400000000) = s_ "-P999999999D" /\
  py_dur_to (1000000000 * 86400000000 - 1) = s_ "P999999999DT23H59M59.999999S".
Proof. repeat split; vm_compute; reflexivity. Qed.

(** ** C12: Go *)

Theorem C12_go_duration_round_trip_partial d :
  - 2 ^ 63 < d < 2 ^ 63 ->
  go_dur_from (go_dur_to d) = Some d /\
  (d <> 0 -> exists g, iso_duration g (go_dur_to d) /\ negative g = (d <? 0)).
Proof.
  intros H. assert (Hd : min_int64 < d <= max_int64) by (unfold min_int64, max_int64; lia).
  split; [apply go_round_trip; exact Hd|]. intros Hn. rewrite go_dur_to_text by exact Hd.
  destruct (ns_text_groups (d <? 0) (Z.abs d) ltac:(lia)) as (D & Hh & M & se & P1 & P2 & P3 & Hse & Hp & -> & Hpos & E).
  exists (printed (d <? 0) D Hh M se). split; [|reflexivity]. apply print_iso; [exact Hse|apply Hpos; lia].
Qed.

(** The most negative duration is written as "-P" and read back as zero. *)
Theorem C12_go_min_duration_refuted :
  go_dur_to (- 2 ^ 63) = s_ "-P" /\ go_dur_from (go_dur_to (- 2 ^ 63)) = Some 0.
Proof. split; vm_compute; reflexivity. Qed.

Example C12_demo :
  go_dur_to (2 ^ 63 - 1) = s_ "P106751DT23H47M16.854775807S" /\
  go_dur_from (s_ "P106751DT23H47M16.854775807S") = Some (2 ^ 63 - 1) /\
  go_dur_to (-1500000000) = s_ "-PT1.5S".
Proof. repeat split; vm_compute; reflexivity. Qed.

(** ** C13: C++ *)

(** If the flag [overflows] happens to be false initially. *)
Theorem C13_cpp_duration_round_trip_partial d :
  - 2 ^ 63 <= d < 2 ^ 63 ->
  (cpp_dur_to d = CppThrow <-> d = - 2 ^ 63) /\
  (d <> - 2 ^ 63 -> exists s, cpp_dur_to d = CppOk s /\ cpp_dur_from false s = CppOk d /\
     (d <> 0 -> exists g, iso_duration g s /\ negative g = (d <? 0))).
Proof.
  intros H. split.
  - split; [|intros ->; reflexivity]. intros E. destruct (Z.eq_dec d (- 2 ^ 63)) as [|Hn]; [assumption|].
    rewrite cpp_dur_to_text in E by (unfold min_int64, max_int64; lia). discriminate.
  - intros Hn. assert (Hd : min_int64 < d <= max_int64) by (unfold min_int64, max_int64; lia).
    destruct (cpp_round_trip d Hd) as (s & Es & Hs). exists s. split; [exact Es|]. split; [exact Hs|].
    intros Hz. rewrite cpp_dur_to_text in Es by exact Hd. injection Es as <-.
    destruct (ns_text_groups (d <? 0) (Z.abs d) ltac:(lia)) as (D & Hh & M & se & P1 & P2 & P3 & Hse & Hp & -> & Hpos & E).
    exists (printed (d <? 0) D Hh M se). split; [|reflexivity]. apply print_iso; [exact Hse|apply Hpos; lia].
Qed.

(** [bool overflows;] is not initialized: if it is true, nothing is accepted. *)
Theorem C13_cpp_uninitialized_flag_refuted s d : cpp_dur_from true s <> CppOk d.
Proof. apply cpp_dur_from_true. Qed.

Example C13_demo :
  cpp_dur_to (-86400000000001) = CppOk (s_ "-P1DT0.000000001S") /\
  cpp_dur_from false (s_ "-P1DT0.000000001S") = CppOk (-86400000000001) /\
  cpp_dur_from true (s_ "-P1DT0.000000001S") = CppError.
Proof. repeat split; vm_compute; reflexivity. Qed.

(** ** C14: the accepted texts *)

(** Go: exactly the texts of the grammar with at most nine decimal places of
    seconds whose parts are finite and whose sum, taken without any bound, fits;
    the result is that sum, never one modulo 2^64. *)
Theorem C14_go_accepts_exactly s d : go_dur_from s = Some d <->
  exists g total, duration g s /\ (places (g_seconds g) <= 9)%nat /\
    Forall (fun o => finite (part_value o)) (float_groups g) /\
    nanoseconds g total /\ total < 2 ^ 63 /\ d = (if negative g then - total else total).
Proof.
  rewrite go_dur_from_iff. split; intros (g & t & H); exists g, t; unfold max_int64 in *; intuition lia.
Qed.

(** C++ likewise, if [std::stod] does not throw. *)
Theorem C14_cpp_accepts_exactly s d : cpp_dur_from false s = CppOk d <->
  exists g total, duration g s /\ (places (g_seconds g) <= 9)%nat /\
    Forall (fun o => stod_throws o = false) (float_groups g) /\
    nanoseconds g total /\ total < 2 ^ 63 /\ d = (if negative g then - total else total).
Proof.
  rewrite cpp_dur_from_iff. split; intros (g & t & H); exists g, t; unfold max_int64 in *; intuition lia.
Qed.

(** Texts without years, months and fractions of the larger parts are read exactly. *)
Theorem C14_go_exact_partial g s w d h mi : duration g s -> (places (g_seconds g) <= 9)%nat ->
  g_years g = None -> g_months g = None -> integral (g_weeks g) w -> integral (g_days g) d ->
  integral (g_hours g) h -> integral (g_minutes g) mi ->
  let total := seconds_units 9 (g_seconds g) + (mi * 60 + h * 3600 + d * 86400 + w * 604800) * 1000000000 in
  go_dur_from s = if total <? 2 ^ 63 then Some (if negative g then - total else total) else None.
Proof.
  intros Hs Hp Hy Hm Hw Hd Hh Hmi. cbv zeta. rewrite (go_exact g s w d h mi) by assumption. cbv zeta.
  unfold exact_ns, max_int64.
  match goal with |- (if ?a then _ else _) = (if ?b then _ else _) => replace b with a; [reflexivity|] end.
  apply eq_true_iff_eq. rewrite Z.leb_le, Z.ltb_lt. lia.
Qed.

Theorem C14_cpp_exact_partial g s w d h mi : duration g s -> (places (g_seconds g) <= 9)%nat ->
  g_years g = None -> g_months g = None -> integral (g_weeks g) w -> integral (g_days g) d ->
  integral (g_hours g) h -> integral (g_minutes g) mi ->
  let total := seconds_units 9 (g_seconds g) + (mi * 60 + h * 3600 + d * 86400 + w * 604800) * 1000000000 in
  forall r, cpp_dur_from false s = CppOk r <-> total < 2 ^ 63 /\ r = (if negative g then - total else total).
Proof.
  intros Hs Hp Hy Hm Hw Hd Hh Hmi total r. rewrite (cpp_exact g s w d h mi) by assumption.
  fold total. unfold exact_ns, max_int64. fold total. intuition lia.
Qed.

Theorem C14_python_exact_partial g s w d h mi : duration g s -> (places (g_seconds g) <= 6)%nat ->
  g_years g = None -> g_months g = None -> integral (g_weeks g) w -> integral (g_days g) d ->
  integral (g_hours g) h -> integral (g_minutes g) mi ->
  let total := seconds_units 6 (g_seconds g) + (mi * 60 + h * 3600 + d * 86400 + w * 604800) * 1000000 in
  py_dur_from s =
    if (if negative g then total <=? 999999999 * 86400000000 else total <? 1000000000 * 86400000000)
    then Some (if negative g then - total else total) else None.
Proof.
  intros Hs Hp Hy Hm Hw Hd Hh Hmi. cbv zeta. rewrite (py_exact g s w d h mi) by (try assumption; left; assumption).
  cbv zeta. unfold exact_us, signed, timedelta_ok, us_per_day.
  set (total := _ + _). assert (Ht : 0 <= total).
  { unfold total. pose proof (integral_nonneg _ _ Hw). pose proof (integral_nonneg _ _ Hd).
    pose proof (integral_nonneg _ _ Hh). pose proof (integral_nonneg _ _ Hmi).
    pose proof (seconds_le_total 6 (g_seconds g) ltac:(lia)). pose proof (seconds_of_nonneg (g_seconds g)).
    change (10 ^ Z.of_nat 6) with 1000000 in *. lia. }
  match goal with |- (if ?a then _ else _) = (if ?b then _ else _) => replace b with a; [reflexivity|] end.
  destruct (negative g); apply eq_true_iff_eq; rewrite ?andb_true_iff, ?Z.leb_le, ?Z.ltb_lt; lia.
Qed.

(** Whatever Python accepts has the grammar, up to a final newline, at most six
    decimal places of seconds, and is in the range of timedelta. *)
Theorem C14_python_accepts_only_partial s us : py_dur_from s = Some us ->
  -999999999 * 86400000000 <= us < 1000000000 * 86400000000 /\
  exists g, (duration g s \/ exists s0, s = s0 ++ [10%N] /\ duration g s0) /\ (places (g_seconds g) <= 6)%nat.
Proof.
  intros H. apply py_dur_from_range in H. destruct H as [R G]. split; [|exact G].
  unfold timedelta_ok, us_per_day in R. apply andb_true_iff in R. rewrite Z.leb_le, Z.ltb_lt in R. exact R.
Qed.

(** A duration has only one reading. *)
Theorem C14_grammar_unambiguous g g' s : duration g s -> duration g' s -> g = g'.
Proof. apply duration_unique. Qed.

(** Python accepts a trailing newline. *)
Theorem C14_python_newline_refuted :
  py_dur_from (s_ "P1D" ++ [10%N]) = Some 86400000000 /\
  forall g, ~ duration g (s_ "P1D" ++ [10%N]).
Proof.
  split; [vm_compute; reflexivity|]. intros g H. apply match_strict_iff in H. discriminate.
Qed.

(** C++ throws instead of reporting an error if the seconds exceed an int64 ... *)
Theorem C14_cpp_throws_refuted :
  cpp_dur_from false (s_ "PT9223372036854775808S") = CppThrow.
Proof. vm_compute. reflexivity. Qed.

Example C14_demo :
  go_dur_from (s_ "P1Y2M3W4DT5H6M7.000000008S") = Some 38994811000000008 /\
  cpp_dur_from false (s_ "P1Y2M3W4DT5H6M7.000000008S") = CppOk 38994811000000008 /\
  py_dur_from (s_ "P1Y2M3W4DT5H6M7.000008S") = Some 38994811000008 /\
  go_dur_from (s_ "P106752D") = None /\ py_dur_from (s_ "P1000000000D") = None /\
  go_dur_from (s_ "P01D") = None /\ go_dur_from (s_ "P1H") = None /\ go_dur_from (s_ "-PT") = Some 0.
Proof. repeat split; vm_compute; reflexivity. Qed.

Print Assumptions C11_python_duration_round_trip.
Print Assumptions C11_python_duration_iso_partial.
Print Assumptions C11_python_zero_duration_refuted.
Print Assumptions C12_go_duration_round_trip_partial.
Print Assumptions C12_go_min_duration_refuted.
Print Assumptions C13_cpp_duration_round_trip_partial.
Print Assumptions C13_cpp_uninitialized_flag_refuted.
Print Assumptions C14_go_accepts_exactly.
Print Assumptions C14_cpp_accepts_exactly.
Print Assumptions C14_go_exact_partial.
Print Assumptions C14_cpp_exact_partial.
Print Assumptions C14_python_exact_partial.
Print Assumptions C14_python_accepts_only_partial.
Print Assumptions C14_grammar_unambiguous.
Print Assumptions C14_python_newline_refuted.
Print Assumptions C14_cpp_throws_refuted.
