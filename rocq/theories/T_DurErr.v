(** C14: the parsed durations are accurate, and every duration in range is accepted. *)
From Verif Require Import Base M_Dec M_Schema M_Duration S_Duration S_DurValue P_DurFloat P_Duration P_DurText P_DurPrint P_DurErr P_DurErrPy.
From Coq Require Import String List NArith ZArith Bool Lia QArith Lqa.
Import ListNotations.
Open Scope Z_scope.

(** [seconds_meant g] is the exact value of the text, a year being 365.2425 days
    and a month a twelfth of a year.  [1 # 1125899906842624] is 2^-50. *)
Definition nanoseconds_meant (g : groups) : Q := (seconds_meant g * 1000000000)%Q.
Definition microseconds_meant (g : groups) : Q := (seconds_meant g * 1000000)%Q.

(** ** Go *)
Theorem C14_go_accuracy s d : go_dur_from s = Some d ->
  exists g, duration g s /\
    within_error (inject_Z d) (signed_value g (nanoseconds_meant g)) (nanoseconds_meant g * (1 # 1125899906842624) + 7).
Proof. apply go_error. Qed.

Theorem C14_go_accepts_in_range g s : duration g s -> (places (g_seconds g) <= 9)%nat ->
  (nanoseconds_meant g <= inject_Z (2 ^ 63 - 8200))%Q -> exists d, go_dur_from s = Some d.
Proof. intros H Hp Hm. now apply (go_accepts g). Qed.

Theorem C14_go_rejects_out_of_range g s : duration g s ->
  (inject_Z (2 ^ 63 + 8200) <= nanoseconds_meant g)%Q -> go_dur_from s = None.
Proof.
  intros H Hm. destruct (go_dur_from s) as [d|] eqn:E; [|reflexivity]. exfalso. assert (E' := E).
  apply go_dur_from_iff in E' as (g' & total & Hg & Hp & _ & Hn & Ht & _). rewrite (duration_unique g' g s Hg H) in *.
  destruct (nanoseconds_error g total Hp Hn) as (L & _). unfold max_int64 in Ht. assert (X : (inject_Z total <= inject_Z 9223372036854775807)%Q) by (rewrite <- Zle_Qle; exact Ht).
  change (inject_Z 9223372036854775807) with 9223372036854775807%Q in X. change (inject_Z (2 ^ 63 + 8200)) with 9223372036854784008%Q in Hm.
  unfold nanoseconds_meant, ns_meant in *. lra.
Qed.

(** ** C++, if the flag [overflows] happens to be false initially *)
Theorem C14_cpp_accuracy s d : cpp_dur_from false s = CppOk d ->
  exists g, duration g s /\
    within_error (inject_Z d) (signed_value g (nanoseconds_meant g)) (nanoseconds_meant g * (1 # 1125899906842624) + 7).
Proof. apply cpp_error. Qed.

(** [std::stod] throws on numbers below the normal range, hence the bound on the
    number of decimal places. *)
Theorem C14_cpp_accepts_in_range g s : duration g s -> (places (g_seconds g) <= 9)%nat ->
  (forall o, In o [g_years g; g_months g; g_weeks g; g_days g; g_hours g; g_minutes g] -> (places o <= 300)%nat) ->
  (nanoseconds_meant g <= inject_Z (2 ^ 63 - 8200))%Q -> exists d, cpp_dur_from false s = CppOk d.
Proof. intros H Hp H300 Hm. apply (cpp_accepts g); try assumption. apply Forall_forall. exact H300. Qed.

Theorem C14_cpp_rejects_out_of_range g s d : duration g s ->
  (inject_Z (2 ^ 63 + 8200) <= nanoseconds_meant g)%Q -> cpp_dur_from false s <> CppOk d.
Proof.
  intros H Hm E. apply cpp_dur_from_iff in E as (g' & total & Hg & Hp & _ & Hn & Ht & _). rewrite (duration_unique g' g s Hg H) in *.
  destruct (nanoseconds_error g total Hp Hn) as (L & _). unfold max_int64 in Ht. assert (X : (inject_Z total <= inject_Z 9223372036854775807)%Q) by (rewrite <- Zle_Qle; exact Ht).
  change (inject_Z 9223372036854775807) with 9223372036854775807%Q in X. change (inject_Z (2 ^ 63 + 8200)) with 9223372036854784008%Q in Hm.
  unfold nanoseconds_meant, ns_meant in *. lra.
Qed.

(** A text that is read by both is read as the same value. *)
Theorem C14_go_cpp_agree s d d' : go_dur_from s = Some d -> cpp_dur_from false s = CppOk d' -> d = d'.
Proof.
  intros H H'. apply go_dur_from_iff in H as (g & t & Hg & _ & _ & (zs & F & ->) & _ & ->).
  apply cpp_dur_from_iff in H' as (g' & t' & Hg' & _ & _ & (zs' & F' & ->) & _ & ->).
  rewrite (duration_unique g' g s Hg' Hg) in *. assert (E : zs = zs'); [|now rewrite E].
  revert zs' F'. induction F as [|f z fs zs Hz _ IH]; intros zs' F'; inversion F' as [|f' z' fs' zs2 Hz' F2]; subst; [reflexivity|]. f_equal; [|now apply IH].
  destruct (modf_floor _ _ Hz) as (r1 & E1). destruct (modf_floor _ _ Hz') as (r2 & E2). congruence.
Qed.

(** ** Python, where a newline at the end is ignored *)
Theorem C14_python_accuracy s d : py_dur_from s = Some d ->
  exists g, (duration g s \/ exists s0, s = s0 ++ [10%N] /\ duration g s0) /\
    within_error (inject_Z d) (signed_value g (microseconds_meant g)) (microseconds_meant g * (1 # 1125899906842624) + (501 # 1000)).
Proof. apply python_error. Qed.

(** Up to a tenth of a second within the range of timedelta. *)
Theorem C14_python_accepts_in_range g s : duration g s \/ (exists s0, s = s0 ++ [10%N] /\ duration g s0) -> (places (g_seconds g) <= 6)%nat ->
  (inject_Z (- 999999999 * 86400000000 + 100000) <= signed_value g (microseconds_meant g))%Q ->
  (signed_value g (microseconds_meant g) <= inject_Z (1000000000 * 86400000000 - 100000))%Q -> exists d, py_dur_from s = Some d.
Proof.
  intros H Hp Hl Hu. apply (python_accepts g); try assumption. unfold signed_value in *.
  change (inject_Z (- 999999999 * 86400000000 + 100000)) with (-86399999913599900000)%Q in Hl. change (inject_Z (1000000000 * 86400000000 - 100000)) with 86399999999999900000%Q in Hu.
  unfold us_meant, microseconds_meant in *. destruct (negative g); lra.
Qed.

Theorem C14_python_rejects_out_of_range g s : duration g s \/ (exists s0, s = s0 ++ [10%N] /\ duration g s0) ->
  (signed_value g (microseconds_meant g) <= inject_Z (- 999999999 * 86400000000 - 100000))%Q \/
  (inject_Z (1000000000 * 86400000000 + 100000) <= signed_value g (microseconds_meant g))%Q -> py_dur_from s = None.
Proof.
  intros H Hm. destruct (py_dur_from s) as [d|] eqn:E; [|reflexivity]. exfalso. destruct (py_dur_from_range s d E) as (T & _).
  destruct (python_error s d E) as (g' & H' & (L & U)). apply match_python_iff in H, H'. rewrite H in H'. injection H' as <-.
  unfold timedelta_ok, us_per_day in T. apply andb_true_iff in T as (T1 & T2). apply Z.leb_le in T1. apply Z.ltb_lt in T2. rewrite Zle_Qle in T1. rewrite Zlt_Qlt in T2.
  change (inject_Z (- 999999999 * 86400000000)) with (-86399999913600000000)%Q in T1. change (inject_Z (1000000000 * 86400000000)) with 86400000000000000000%Q in T2.
  change (inject_Z (- 999999999 * 86400000000 - 100000)) with (-86399999913600100000)%Q in Hm. change (inject_Z (1000000000 * 86400000000 + 100000)) with 86400000000000100000%Q in Hm.
  unfold us_meant, microseconds_meant, signed_value in *.
  destruct (negative g), Hm; lra.
Qed.

(** A year and a half month, half a minute. *)
Example C14_accuracy_demo :
  let s := s_ "-P1Y0.5MT0.5M0.25S" in
  exists g, duration g s /\ (nanoseconds_meant g == 32871855250000000)%Q /\
    go_dur_from s = Some (-32871855250000000) /\ cpp_dur_from false s = CppOk (-32871855250000000) /\ py_dur_from s = Some (-32871855250000).
Proof.
  cbv zeta. exists (Groups true (Some (s_ "1", None)) (Some (s_ "0", Some (s_ "5"))) None None None (Some (s_ "0", Some (s_ "5"))) (Some (s_ "0", Some (s_ "25")))).
  split; [apply match_strict_iff; vm_compute; reflexivity|]. repeat split; vm_compute; reflexivity.
Qed.
(** Rounding does occur. *)
Example C14_error_demo : let s := s_ "P0.1M" in
  exists g, duration g s /\ (nanoseconds_meant g == 262974600000000)%Q /\ exists d, go_dur_from s = Some d.
Proof.
  cbv zeta. exists (Groups false None (Some (s_ "0", Some (s_ "1"))) None None None None None).
  split; [apply match_strict_iff; vm_compute; reflexivity|]. split; [vm_compute; reflexivity|]. eexists. vm_compute. reflexivity.
Qed.
(** The bounds on the range are met. *)
Example C14_range_demo :
  exists g, duration g (s_ "P292Y") /\ (nanoseconds_meant g <= inject_Z (2 ^ 63 - 8200))%Q /\
  exists g', duration g' (s_ "P293Y") /\ (inject_Z (2 ^ 63 + 8200) <= nanoseconds_meant g')%Q.
Proof.
  exists (Groups false (Some (s_ "292", None)) None None None None None None).
  split; [apply match_strict_iff; vm_compute; reflexivity|]. split; [vm_compute; discriminate|].
  exists (Groups false (Some (s_ "293", None)) None None None None None None).
  split; [apply match_strict_iff; vm_compute; reflexivity|]. vm_compute. discriminate.
Qed.

Print Assumptions C14_go_accuracy.
Print Assumptions C14_go_accepts_in_range.
Print Assumptions C14_go_rejects_out_of_range.
Print Assumptions C14_cpp_accuracy.
Print Assumptions C14_cpp_accepts_in_range.
Print Assumptions C14_cpp_rejects_out_of_range.
Print Assumptions C14_go_cpp_agree.
Print Assumptions C14_python_accuracy.
Print Assumptions C14_python_accepts_in_range.
Print Assumptions C14_python_rejects_out_of_range.
