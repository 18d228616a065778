(** Model of the generated conversions between durations and ISO 8601 texts:
    Python (microseconds), Go and C++ (nanoseconds in an int64). *)
From Verif Require Import Base M_Naming M_Dec M_Schema.
From Coq Require Import String Ascii List Arith NArith ZArith Bool Floats.SpecFloat.
Import ListNotations.

(** ** The regular expression

    py/generate/fromjsonable.py:117-129, go/generate/fromjsonable.py:107-118 and
    cpp/generate/jsoncpp_impl.py:179-191 are the same expression (up to the
    meaning of [$]: in Python it also matches before a trailing newline).  The
    matching below is greedy; every alternative fails at the first character, so
    that a backtracking engine finds the same groups. *)

(** A number is 0 or digits that start with 1-9, optionally followed by a dot and
    digits: the integer digits and the fraction digits. *)
Definition number := (str * option str)%type.

Fixpoint span_digits (s : str) : str * str :=
  match s with
  | c :: s' => if is_digit c then let '(a, b) := span_digits s' in (c :: a, b) else ([], s)
  | [] => ([], [])
  end.

(** No leading zero in a run of digits. *)
Definition int_digits (ds : str) : bool :=
  match ds with
  | [] => false
  | c :: r => match r with [] => true | _ => negb (N.eqb c 48) end
  end.

Definition match_number (s : str) : option (number * str) :=
  let '(ds, r) := span_digits s in
  if int_digits ds then
    match r with
    | c :: r' =>
        if N.eqb c 46 then
          match span_digits r' with
          | ([], _) => Some ((ds, None), r)
          | (fs, r'') => Some ((ds, Some fs), r'')
          end
        else Some ((ds, None), r)
    | [] => Some ((ds, None), r)
    end
  else None.

(** [(number unit)?] *)
Definition match_part (unit : chr) (s : str) : option number * str :=
  match match_number s with
  | Some (n, c :: r) => if N.eqb c unit then (Some n, r) else (None, s)
  | _ => (None, s)
  end.

Record groups := Groups {
  negative : bool;
  g_years : option number; g_months : option number; g_weeks : option number; g_days : option number;
  g_hours : option number; g_minutes : option number; g_seconds : option number }.

Definition match_sign (s : str) : bool * str :=
  match s with
  | c :: s' => if N.eqb c 45 then (true, s') else if N.eqb c 43 then (false, s') else (false, s)
  | [] => (false, s)
  end.

(** [at_end]: what [$] accepts. *)
Definition match_duration (at_end : str -> bool) (s : str) : option groups :=
  let '(neg, s1) := match_sign s in
  match s1 with
  | c :: s2 =>
      if N.eqb c 80 (* P *) then
        let '(y, s3) := match_part 89 s2 in
        let '(mo, s4) := match_part 77 s3 in
        let '(w, s5) := match_part 87 s4 in
        let '(d, s6) := match_part 68 s5 in
        match s6 with
        | t :: s7 =>
            if N.eqb t 84 (* T *) then
              let '(h, s8) := match_part 72 s7 in
              let '(mi, s9) := match_part 77 s8 in
              let '(se, s10) := match_part 83 s9 in
              if at_end s10 then Some (Groups neg y mo w d h mi se) else None
            else if at_end s6 then Some (Groups neg y mo w d None None None) else None
        | [] => if at_end [] then Some (Groups neg y mo w d None None None) else None
        end
      else None
  | [] => None
  end.

Definition end_strict (s : str) : bool := match s with [] => true | _ => false end.
Definition end_python (s : str) : bool :=
  match s with [] => true | c :: s' => N.eqb c 10 && match s' with [] => true | _ => false end end.

(** ** Floats: IEEE binary64, round to nearest even *)

Notation f64 := spec_float (only parsing).
Definition fmul (x y : f64) : f64 := SFmul 53 1024 x y.
Definition fadd (x y : f64) : f64 := SFadd 53 1024 x y.

(** The float nearest to [n / d]. *)
Definition float_of_ratio (n d : positive) : f64 :=
  let '(mz, ez, lz) := SFdiv_core_binary 53 1024 (Zpos n) 0 (Zpos d) 0 in
  binary_round_aux 53 1024 false mz ez lz.

(** [float(text)], [strconv.ParseFloat], [std::stod] of a [number]: correctly
    rounded, infinity on overflow. *)
Definition float_of_number (n : number) : f64 :=
  let '(ds, fs) := n in
  let digits := match fs with Some f => ds ++ f | None => ds end in
  let places := match fs with Some f => length f | None => 0%nat end in
  match num_of digits, (10 ^ N.of_nat places)%N with
  | Npos p, Npos q => if (q =? 1)%positive then binary_normalize 53 1024 (Zpos p) 0 false
                      else float_of_ratio p q
  | _, _ => S754_zero false
  end.

Definition float_or_zero (o : option number) : f64 :=
  match o with Some n => float_of_number n | None => S754_zero false end.

Definition decimal (n : positive) (d : positive) : f64 := float_of_ratio n d.
Definition c365_2425 : f64 := Eval vm_compute in decimal 3652425 10000.
Definition c30_436875 : f64 := Eval vm_compute in decimal 30436875 1000000.
Definition c7 : f64 := Eval vm_compute in decimal 7 1.
Definition c24 : f64 := Eval vm_compute in decimal 24 1.
Definition c6e10 : f64 := Eval vm_compute in decimal 60000000000 1.
Definition c3_6e12 : f64 := Eval vm_compute in decimal 3600000000000 1.

(** [modf(x)] of a non-negative number: the integer and the fractional part; [None]
    if [x] is infinite or not a number. *)
Definition modf (x : f64) : option (Z * f64) :=
  match x with
  | S754_finite s m e =>
      let n := Zpos m in
      let '(i, f) := if (0 <=? e)%Z then (n * 2 ^ e, S754_zero s)%Z
                     else (n / 2 ^ (- e), binary_normalize 53 1024 (n mod 2 ^ (- e)) e s)%Z in
      Some (if s then (- i)%Z else i, f)
  | S754_zero s => Some (0%Z, S754_zero s)
  | _ => None
  end.

Definition is_zero (x : f64) : bool := match x with S754_zero _ => true | _ => false end.

(** ** Python *)

(** CPython's [accum] (Modules/_datetimemodule.c) for a float argument: the sum so
    far and the accumulated leftover of fractional microseconds.  [None]:
    OverflowError. *)
Definition accum (factor : Z) (x : f64) (acc : Z * f64) : option (Z * f64) :=
  let '(sum, leftover) := acc in
  match modf x with
  | None => None
  | Some (i, f) =>
      let sum' := (sum + i * factor)%Z in
      if is_zero f then Some (sum', leftover)
      else match modf (fmul (binary_normalize 53 1024 factor 0 false) f) with
           | None => None
           | Some (j, g) => Some ((sum' + j)%Z, fadd leftover g)
           end
  end.

(** The rounding of the leftover microseconds in CPython's [delta_new]: to the
    nearest integer; a tie such that the total is even. *)
Definition round_leftover (sum : Z) (leftover : f64) : Z :=
  match leftover with
  | S754_finite false m e =>
      if (0 <=? e)%Z then (sum + Zpos m * 2 ^ e)%Z
      else
        let d := (2 ^ (- e))%Z in
        let q := (Zpos m / d)%Z in
        let r := (2 * (Zpos m mod d))%Z in
        match Z.compare r d with
        | Lt => sum + q
        | Gt => sum + q + 1
        | Eq => if Z.even (sum + q) then sum + q else sum + q + 1
        end%Z
  | _ => sum
  end.

Definition us_per_day : Z := 86400000000.
(** [timedelta.min] .. [timedelta.max] in microseconds. *)
Definition timedelta_ok (us : Z) : bool :=
  (- 999999999 * us_per_day <=? us)%Z && (us <? 1000000000 * us_per_day)%Z.

(** [str.lstrip('0')] / [strings.TrimLeft(s, "0")] *)
Fixpoint lstrip0 (s : str) : str :=
  match s with c :: s' => if N.eqb c 48 then lstrip0 s' else s | [] => [] end.

(** [int(seconds_grp)] *)
Definition seconds_of (o : option number) : Z :=
  match o with Some (ds, _) => Z.of_N (num_of ds) | None => 0%Z end.
Definition fraction_of (o : option number) : option str :=
  match o with Some (_, fs) => fs | None => None end.

(** fromjsonable.py:216-229 with 6 places, go 221-243 and cpp 281-317 with 9:
    [None] if there are too many digits. *)
Definition fraction_units (places : nat) (fs : option str) : option Z :=
  match fs with
  | None => Some 0%Z
  | Some f =>
      if (places <? length f)%nat then None
      else match lstrip0 f with
           | [] => Some 0%Z
           | t => Some (Z.of_N (num_of t) * 10 ^ Z.of_nat (places - length f))%Z
           end
  end.

(** py/generate/fromjsonable.py:131-245, [_duration_from_string]: the microseconds
    of the timedelta, [None] for ValueError and OverflowError (both are caught by
    the caller). *)
Definition py_dur_from (text : str) : option Z :=
  match match_duration end_python text with
  | None => None
  | Some g =>
      match fraction_units 6 (fraction_of (g_seconds g)) with
      | None => None
      | Some us =>
          let days := fadd (fadd (fadd (fmul (float_or_zero (g_years g)) c365_2425)
                                       (fmul (float_or_zero (g_months g)) c30_436875))
                                 (fmul (float_or_zero (g_weeks g)) c7))
                           (float_or_zero (g_days g)) in
          let start := ((us + seconds_of (g_seconds g) * 1000000)%Z, S754_zero false) in
          match accum 60000000 (float_or_zero (g_minutes g)) start with
          | None => None
          | Some a1 =>
          match accum 3600000000 (float_or_zero (g_hours g)) a1 with
          | None => None
          | Some a2 =>
          match accum us_per_day days a2 with
          | None => None
          | Some (sum, leftover) =>
              let total := round_leftover sum leftover in
              if timedelta_ok total then
                let result := if negative g then (- total)%Z else total in
                if timedelta_ok result then Some result else None
              else None
          end end end
      end
  end.

(** [str.rstrip('0')] *)
Definition rstrip0 (s : str) : str := rev (lstrip0 (rev s)).
(** ['{:0k}'.format(n)], ["%0kd"] of a non-negative number. *)
Definition pad (k : nat) (n : N) : str :=
  let s := dec_N n in repeat 48%N (k - length s) ++ s.

Definition when (b : bool) (s : str) : str := if b then s else [].

(** py/generate/tojsonable.py:96-134, [_duration_to_string] *)
Definition py_dur_to (us : Z) : str :=
  let a := Z.abs us in
  let days := (a / us_per_day)%Z in
  let seconds := (a mod us_per_day / 1000000)%Z in
  let micro := (a mod 1000000)%Z in
  let hours := (seconds / 3600)%Z in
  let minutes := (seconds mod 3600 / 60)%Z in
  let secs := (seconds mod 60)%Z in
  when (us <? 0)%Z (s_ "-") ++ s_ "P" ++
  when (0 <? days)%Z (dec_Z days ++ s_ "D") ++
  when ((0 <? seconds)%Z || (0 <? micro)%Z)
    (s_ "T" ++
     when (0 <? hours)%Z (dec_Z hours ++ s_ "H") ++
     when (0 <? minutes)%Z (dec_Z minutes ++ s_ "M") ++
     (if (0 <? micro)%Z then dec_Z secs ++ s_ "." ++ rstrip0 (pad 6 (Z.to_N micro)) ++ s_ "S"
      else when (0 <? secs)%Z (dec_Z secs ++ s_ "S"))).

(** ** Go and C++: int64 nanoseconds *)

Definition max_int64 : Z := 9223372036854775807.
Definition min_int64 : Z := -9223372036854775808.
(** Arithmetic modulo 2^64. *)
Definition wrap64 (z : Z) : Z := ((z + 2 ^ 63) mod 2 ^ 64 - 2 ^ 63)%Z.

(** [f >= z] *)
Definition float_ge (f : f64) (z : Z) : bool :=
  match cmp_float_Z f z with Some Gt | Some Eq => true | _ => false end.

(** [int64(f)] for [f] in range. *)
Definition trunc (f : f64) : Z := match modf f with Some (i, _) => i | None => 0%Z end.

(** go/generate/fromjsonable.py:120-149, [addDuration]; the first two checks never
    fail since the arguments are sums of non-negative numbers: see
    [products_nonneg] in P_DurSum.v.  [None]: overflow. *)
Definition add_duration (left : Z) (right : f64) : option Z :=
  if float_ge right (2 ^ 63) then None
  else
    let right_ns := trunc right in
    if (max_int64 - left <? right_ns)%Z then None else Some (left + right_ns)%Z.

Definition bindo {A B} (o : option A) (f : A -> option B) : option B :=
  match o with Some a => f a | None => None end.

Definition is_inf (f : f64) : bool := match f with S754_infinity _ => true | _ => false end.

(** The sum of go/generate/fromjsonable.py:256-316 and
    cpp/generate/jsoncpp_impl.py:343-428 (the same steps in the same order); the
    test of [seconds] excludes a wrap-around of the product. *)
Definition sum_ns (g : groups) (ns : Z) : option Z :=
  let seconds := seconds_of (g_seconds g) in
  let f o := float_or_zero o in
  if (max_int64 / 1000000000 <? seconds)%Z then None
  else if (max_int64 - ns <? seconds * 1000000000)%Z then None
  else
    bindo (add_duration (ns + seconds * 1000000000)%Z (fmul (f (g_minutes g)) c6e10)) (fun d =>
    bindo (add_duration d (fmul (f (g_hours g)) c3_6e12)) (fun d =>
    bindo (add_duration d (fmul (fmul (f (g_days g)) c24) c3_6e12)) (fun d =>
    bindo (add_duration d (fmul (fmul (fmul (f (g_weeks g)) c7) c24) c3_6e12)) (fun d =>
    bindo (add_duration d (fmul (fmul (fmul (f (g_months g)) c30_436875) c24) c3_6e12)) (fun d =>
           add_duration d (fmul (fmul (fmul (f (g_years g)) c365_2425) c24) c3_6e12)))))).

Definition float_groups (g : groups) : list (option number) :=
  [g_years g; g_months g; g_weeks g; g_days g; g_hours g; g_minutes g].

(** go/generate/fromjsonable.py:151-322, [durationFromString]; [None] for an
    error.  [strconv.ParseFloat] fails on infinity, [strconv.ParseInt] above
    MaxInt64. *)
Definition go_dur_from (text : str) : option Z :=
  match match_duration end_strict text with
  | None => None
  | Some g =>
      if existsb (fun o => is_inf (float_or_zero o)) (float_groups g) then None
      else if (max_int64 <? seconds_of (g_seconds g))%Z then None
      else
        match fraction_units 9 (fraction_of (g_seconds g)) with
        | None => None
        | Some ns =>
            match sum_ns g ns with
            | None => None
            | Some d => Some (if negative g then (- d)%Z else d)
            end
        end
  end.

(** go/generate/tojsonable.py:54-129, [durationToString]; Go's [/] and [%]
    truncate. *)
Definition go_dur_to (d0 : Z) : str :=
  let neg := (d0 <? 0)%Z in
  let d := if neg then wrap64 (- d0) else d0 in
  let days := Z.quot d 86400000000000 in
  let rest := Z.rem d 86400000000000 in
  let hours := Z.quot rest 3600000000000 in
  let rest := Z.rem rest 3600000000000 in
  let minutes := Z.quot rest 60000000000 in
  let rest := Z.rem rest 60000000000 in
  let seconds := Z.quot rest 1000000000 in
  let nanos := Z.rem rest 1000000000 in
  when neg (s_ "-") ++ s_ "P" ++
  when (0 <? days)%Z (dec_Z days ++ s_ "D") ++
  when ((0 <? hours)%Z || (0 <? minutes)%Z || (0 <? seconds)%Z || (0 <? nanos)%Z)
    (s_ "T" ++
     when (0 <? hours)%Z (dec_Z hours ++ s_ "H") ++
     when (0 <? minutes)%Z (dec_Z minutes ++ s_ "M") ++
     (if (nanos =? 0)%Z then when (0 <? seconds)%Z (dec_Z seconds ++ s_ "S")
      else rstrip0 (dec_Z seconds ++ s_ "." ++ pad 9 (Z.to_N nanos)) ++ s_ "S")).

(** ** C++ *)

(** How a call of a generated C++ function ends. *)
Inductive cpp_out (A : Type) := CppOk (a : A) | CppError | CppThrow.
Arguments CppOk {A}. Arguments CppError {A}. Arguments CppThrow {A}.

(** [std::stod] throws std::out_of_range on ERANGE: an infinite result, or a
    non-zero text with a result below the normal range (simplification: glibc
    does not report an exact subnormal result, whose text has more than a
    thousand digits). *)
Definition stod_throws (o : option number) : bool :=
  match o with
  | None => false
  | Some (ds, fs) =>
      let nonzero := negb (num_of (match fs with Some f => ds ++ f | None => ds end) =? 0)%N in
      match float_of_number (ds, fs) with
      | S754_infinity _ => true
      | S754_zero _ => nonzero
      | S754_finite _ m _ => (Zpos m <? 2 ^ 52)%Z
      | S754_nan => true
      end
  end.

(** jsoncpp_impl.py:225-253, [add_rep_double]: the sum and the flag after the
    call.  The flag is only ever set to true; its value before the first call is
    indeterminate ([bool overflows;] at 365). *)
Definition add_rep_double (left : Z) (right : f64) (overflows : bool) : Z * bool :=
  match add_duration left right with
  | Some d => (d, overflows)
  | None => (0%Z, true)
  end.

(** One [sum = add_rep_double(...); if (overflows) return error;] *)
Definition add_step (right : f64) (acc : option (Z * bool)) : option (Z * bool) :=
  match acc with
  | None => None
  | Some (sum, o) =>
      let '(sum', o') := add_rep_double sum right o in
      if o' then None else Some (sum', o')
  end.

(** jsoncpp_impl.py:268-441, [duration_from_string]; [indeterminate] is the
    initial value of the uninitialized flag. *)
Definition cpp_dur_from (indeterminate : bool) (text : str) : cpp_out Z :=
  match match_duration end_strict text with
  | None => CppError
  | Some g =>
      match fraction_units 9 (fraction_of (g_seconds g)) with
      | None => CppError
      | Some ns =>
          if existsb stod_throws (float_groups g) then CppThrow
          else if (max_int64 <? seconds_of (g_seconds g))%Z then CppThrow   (* std::stol *)
          else
            let seconds := seconds_of (g_seconds g) in
            let f o := float_or_zero o in
            if (max_int64 / 1000000000 <? seconds)%Z then CppError
            else if (max_int64 - seconds * 1000000000 <? ns)%Z then CppError
            else
              match
                add_step (fmul (fmul (fmul (f (g_years g)) c365_2425) c24) c3_6e12) (
                add_step (fmul (fmul (fmul (f (g_months g)) c30_436875) c24) c3_6e12) (
                add_step (fmul (fmul (fmul (f (g_weeks g)) c7) c24) c3_6e12) (
                add_step (fmul (fmul (f (g_days g)) c24) c3_6e12) (
                add_step (fmul (f (g_hours g)) c3_6e12) (
                add_step (fmul (f (g_minutes g)) c6e10)
                         (Some (ns + seconds * 1000000000, indeterminate)%Z))))))
              with
              | None => CppError
              | Some (sum, _) => CppOk (if negative g then (- sum)%Z else sum)
              end
      end
  end.

(** jsoncpp_impl.py:2242-2318, [duration_to_string].  The negation of the minimum
    is undefined behaviour; modelled as wrapping around, as the following test
    assumes. *)
Definition cpp_dur_to (d : Z) : cpp_out str :=
  let a := if (d <? 0)%Z then wrap64 (- d) else d in
  if (a <? 0)%Z then CppThrow
  else
    let days := Z.quot a 86400000000000 in
    let rest := Z.rem a 86400000000000 in
    let hours := Z.quot rest 3600000000000 in
    let rest := Z.rem rest 3600000000000 in
    let minutes := Z.quot rest 60000000000 in
    let rest := Z.rem rest 60000000000 in
    let seconds := Z.quot rest 1000000000 in
    let nanos := Z.rem rest 1000000000 in
    CppOk (when (d <? 0)%Z (s_ "-") ++ s_ "P" ++
      when (0 <? days)%Z (dec_Z days ++ s_ "D") ++
      when ((0 <? hours)%Z || (0 <? minutes)%Z || (0 <? seconds)%Z || (0 <? nanos)%Z)
        (s_ "T" ++
         when (0 <? hours)%Z (dec_Z hours ++ s_ "H") ++
         when (0 <? minutes)%Z (dec_Z minutes ++ s_ "M") ++
         (if (nanos =? 0)%Z then when (0 <? seconds)%Z (dec_Z seconds ++ s_ "S")
          else dec_Z seconds ++ s_ "." ++ rstrip0 (pad 9 (Z.to_N nanos)) ++ s_ "S"))).
