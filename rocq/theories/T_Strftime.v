(** C25, C26, C27: date/time formats. *)
From Verif Require Import Base M_Naming M_Strftime S_Strftime P_Strftime P_GoTime.
From Coq Require Import String Ascii List NArith Bool.
Import ListNotations.

(** C25: tokenization succeeds exactly on formats in which every percent sign
    starts a supported directive ... *)
Theorem C25_tokenize_accepts : forall s,
  (exists tl, tokenize s = Ok tl) <-> format_over all_letters s.
Proof. exact tokenize_accepts. Qed.

(** ... the tokens spell out the lines of the format, directives are supported
    and text is non-empty and free of percent signs ... *)
Theorem C25_tokenize_lossless : forall s tl, tokenize s = Ok tl ->
  map (fun l => concat (map content l)) tl = splitlines s /\
  Forall (Forall (fun t => match t with
                           | Directive c => In c SUPPORTED_DIRECTIVES
                           | Text c => c <> [] /\ ~ In 37%N c
                           end)) tl.
Proof. exact tokenize_lossless. Qed.

(** ... and otherwise only the two documented exceptions occur. *)
Theorem C25_tokenize_exceptions : forall s e,
  tokenize s = Raise e -> e = LexeryError \/ e = NotImplementedError.
Proof. exact tokenize_raises. Qed.

(** C26 *)
Theorem C26_date_format : forall s,
  date_format_valid s = true <-> format_over date_letters s /\ not_blank s.
Proof. exact date_format_spec. Qed.
Theorem C26_time_format : forall s,
  time_format_valid s = true <-> format_over time_letters s /\ not_blank s.
Proof. exact time_format_spec. Qed.
Theorem C26_datetime_format : forall s,
  datetime_format_valid s = true <-> format_over all_letters s.
Proof. exact datetime_format_spec. Qed.

(** C27, partial: for formats accepted by the Go validation that in addition
    satisfy [go_safe] and consist of LF-separated lines, the produced Go layout
    denotes exactly the fields and literal characters of the strftime format. *)
Theorem C27_go_layout_faithful_partial : forall s,
  go_format_valid s = true -> lf_separated s -> go_safe s ->
  exists layout, convert s = Ok layout /\ go_layout layout = strftime_items s.
Proof. exact go_conversion_faithful. Qed.

(** C27 is false without these conditions, although the Go validation accepts. *)
Definition misread (s : str) : Prop :=
  go_format_valid s = true /\
  exists layout, convert s = Ok layout /\ go_layout layout <> strftime_items s.

(** Weekdays: Sun is not a Go layout element. *)
Theorem C27_weekday_refuted : misread (s_ "%a") /\ misread (s_ "%A").
Proof.
  split; (split; [reflexivity|]).
  - exists (s_ "Sun"). split; [reflexivity|discriminate].
  - exists (s_ "Sunday"). split; [reflexivity|discriminate].
Qed.
(** Literal digits that the validation does not know about. *)
Theorem C27_literal_digit_refuted : misread (s_ "%Y v1").
Proof. split; [reflexivity|]. exists (s_ "2006 v1"). split; [reflexivity|discriminate]. Qed.
(** Literal text "Monday". *)
Theorem C27_literal_monday_refuted : misread (s_ "%Y Monday").
Proof. split; [reflexivity|]. exists (s_ "2006 Monday"). split; [reflexivity|discriminate]. Qed.
(** Across token boundaries. *)
Theorem C27_boundary_refuted : misread (s_ "P%Z") /\ misread (s_ "%bx") /\ misread (s_ "%b%P").
Proof.
  split; [|split]; (split; [reflexivity|]).
  - exists (s_ "PMST"). split; [reflexivity|discriminate].
  - exists (s_ "Janx"). split; [reflexivity|discriminate].
  - exists (s_ "Janpm"). split; [reflexivity|discriminate].
Qed.
(** A trailing line break is dropped; a CR becomes an LF. *)
Theorem C27_linebreak_refuted :
  misread (s_ "%Y" ++ [10%N]) /\ misread (s_ "%Y" ++ [13%N] ++ s_ "%m").
Proof.
  split; (split; [reflexivity|]).
  - exists (s_ "2006"). split; [reflexivity|discriminate].
  - exists (s_ "2006" ++ [10%N] ++ s_ "01"). split; [reflexivity|discriminate].
Qed.

(** Non-vacuity: a realistic format meets all hypotheses. *)
Example C27_example :
  let s := s_ "%Y-%m-%dT%H:%M:%S.%b %z" in
  go_format_valid s = true /\ lf_separated s /\ go_safe s /\
  convert s = Ok (s_ "2006-01-02T15:04:05.Jan -0700") /\ datetime_format_valid s = true.
Proof.
  split; [reflexivity|]. split; [split; reflexivity|].
  split; [|split; reflexivity].
  vm_compute. repeat split; try congruence; try (intros ? ? [= <- _]; reflexivity).
Qed.
Example C26_example :
  date_format_valid (s_ "%Y-%m-%d") = true /\ date_format_valid (s_ "%H") = false /\
  time_format_valid (s_ "%H:%M") = true /\ date_format_valid [] = false /\
  datetime_format_valid [] = true.
Proof. repeat split. Qed.
Example C25_example :
  tokenize (s_ "%Y x") = Ok [[Directive (s_ "%Y"); Text (s_ " x")]] /\
  tokenize (s_ "%") = Raise LexeryError /\ tokenize (s_ "%j") = Raise NotImplementedError.
Proof. repeat split. Qed.

Print Assumptions C25_tokenize_accepts.
Print Assumptions C25_tokenize_lossless.
Print Assumptions C25_tokenize_exceptions.
Print Assumptions C26_date_format.
Print Assumptions C26_time_format.
Print Assumptions C26_datetime_format.
Print Assumptions C27_go_layout_faithful_partial.
Print Assumptions C27_weekday_refuted.
Print Assumptions C27_literal_digit_refuted.
Print Assumptions C27_literal_monday_refuted.
Print Assumptions C27_boundary_refuted.
Print Assumptions C27_linebreak_refuted.
