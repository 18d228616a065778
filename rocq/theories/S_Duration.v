(** Specification of the duration texts: the grammar and the meaning of the parts. *)
From Verif Require Import Base M_Dec M_Schema M_Duration.
From Coq Require Import String List Arith NArith ZArith Bool Floats.SpecFloat.
Import ListNotations.

Definition digits (s : str) : Prop := Forall (fun c => (48 <= c <= 57)%N) s.

(** The text of a number: "0" or digits without a leading zero, then optionally a
    dot and at least one digit. *)
Definition number_text (n : number) : str :=
  fst n ++ match snd n with Some f => s_ "." ++ f | None => [] end.
Definition number_ok (n : number) : Prop :=
  digits (fst n) /\ fst n <> [] /\ (forall r, fst n = 48%N :: r -> r = []) /\
  (forall f, snd n = Some f -> digits f /\ f <> []).

Definition part_text (unit : string) (o : option number) : str :=
  match o with Some n => number_text n ++ s_ unit | None => [] end.
Definition part_ok (o : option number) : Prop := forall n, o = Some n -> number_ok n.

(** The documented grammar: sign, P, parts Y M W D, optionally T and parts H M S. *)
Definition duration (g : groups) (s : str) : Prop :=
  Forall part_ok [g_years g; g_months g; g_weeks g; g_days g; g_hours g; g_minutes g; g_seconds g] /\
  exists sign time,
    (if negative g then sign = s_ "-" else sign = [] \/ sign = s_ "+") /\
    ((time = [] /\ g_hours g = None /\ g_minutes g = None /\ g_seconds g = None) \/
     time = s_ "T" ++ part_text "H" (g_hours g) ++ part_text "M" (g_minutes g) ++ part_text "S" (g_seconds g)) /\
    s = sign ++ s_ "P" ++ part_text "Y" (g_years g) ++ part_text "M" (g_months g) ++
        part_text "W" (g_weeks g) ++ part_text "D" (g_days g) ++ time.

(** ISO 8601 also demands at least one part, and one after T. *)
Definition iso_duration (g : groups) (s : str) : Prop :=
  duration g s /\
  (exists o, In o [g_years g; g_months g; g_weeks g; g_days g; g_hours g; g_minutes g; g_seconds g] /\ o <> None) /\
  (In 84%N s -> exists o, In o [g_hours g; g_minutes g; g_seconds g] /\ o <> None).

(** The value of a part read as a binary64: zero if absent. *)
Definition part_value (o : option number) : spec_float := float_or_zero o.

Definition places (o : option number) : nat :=
  match o with Some (_, Some f) => length f | _ => 0%nat end.

(** The value of the seconds in units of [10^-k] s. *)
Definition seconds_units (k : nat) (o : option number) : Z :=
  match o with
  | None => 0
  | Some (ds, fs) =>
      Z.of_N (num_of ds) * 10 ^ Z.of_nat k +
      match fs with
      | None => 0
      | Some f => Z.of_N (num_of f) * 10 ^ Z.of_nat (k - length f)
      end
  end%Z.

(** [floor f] of a non-negative finite float. *)
Definition floor_is (f : spec_float) (z : Z) : Prop :=
  match f with
  | S754_zero _ => z = 0%Z
  | S754_finite false m e =>
      (if 0 <=? e then z = Zpos m * 2 ^ e else z * 2 ^ (- e) <= Zpos m < (z + 1) * 2 ^ (- e))%Z
  | _ => False
  end.

(** The nanoseconds of the parts other than seconds, each computed in binary64. *)
Definition nanosecond_products (g : groups) : list spec_float :=
  let '(y, mo, w, d, h, mi) :=
    (part_value (g_years g), part_value (g_months g), part_value (g_weeks g),
     part_value (g_days g), part_value (g_hours g), part_value (g_minutes g)) in
  [fmul mi c6e10; fmul h c3_6e12; fmul (fmul d c24) c3_6e12; fmul (fmul (fmul w c7) c24) c3_6e12;
   fmul (fmul (fmul mo c30_436875) c24) c3_6e12; fmul (fmul (fmul y c365_2425) c24) c3_6e12].

Definition sumZ (l : list Z) : Z := fold_right Z.add 0%Z l.

(** [total] is the mathematical sum, without any bound. *)
Definition nanoseconds (g : groups) (total : Z) : Prop :=
  exists zs, Forall2 floor_is (nanosecond_products g) zs /\
             total = (seconds_units 9 (g_seconds g) + sumZ zs)%Z.

(** A part without a fraction and without unit of irregular length. *)
Definition integral (o : option number) (n : Z) : Prop :=
  match o with None => n = 0%Z | Some (ds, fs) => fs = None /\ n = Z.of_N (num_of ds) end.
