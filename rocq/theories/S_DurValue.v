(** The mathematical value of a duration text, as a rational number of seconds. *)
From Verif Require Import Base M_Dec M_Schema M_Duration.
From Coq Require Import String List ZArith NArith QArith.
Import ListNotations.
Open Scope Q_scope.

(** [12.5] is [12 + 5/10]. *)
Definition decimal_value (n : number) : Q :=
  inject_Z (Z.of_N (num_of (fst n))) +
  match snd n with Some f => Z.of_N (num_of f) # Z.to_pos (10 ^ Z.of_nat (length f)) | None => 0 end.
Definition amount (o : option number) : Q := match o with Some n => decimal_value n | None => 0 end.

(** A year has 365.2425 days on average, a month a twelfth of it. *)
Definition days_per_year : Q := 3652425 # 10000.
Definition days_per_month : Q := days_per_year * (1 # 12).
Definition seconds_meant (g : groups) : Q :=
  (amount (g_years g) * days_per_year + amount (g_months g) * days_per_month + amount (g_weeks g) * 7 + amount (g_days g)) * 86400 +
  amount (g_hours g) * 3600 + amount (g_minutes g) * 60 + amount (g_seconds g).

Definition signed_value (g : groups) (x : Q) : Q := if negative g then - x else x.

(** [x] is at most [r] away from [y]. *)
Definition within_error (x y r : Q) : Prop := y - r <= x /\ x <= y + r.
