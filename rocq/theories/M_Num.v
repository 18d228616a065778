(** Floating-point numbers in the generated Go and C++ code. *)
From Verif Require Import Base M_Naming M_Dec M_Schema.
From Coq Require Import List NArith ZArith Bool Floats.SpecFloat.
Import ListNotations.

(** The value of a finite float, cut off at the point. *)
Definition trunc_Z (f : spec_float) : Z :=
  match f with
  | S754_finite s m e =>
      let n := if (0 <=? e)%Z then (Zpos m * 2 ^ e)%Z else (Zpos m / 2 ^ (- e))%Z in
      if s then (- n)%Z else n
  | _ => 0%Z
  end.

(** [f == math.Trunc(f)]; infinities are equal to themselves, NaN is not. *)
Definition is_trunc (f : spec_float) : bool :=
  match f with
  | S754_nan => false
  | S754_infinity _ => true
  | _ => match cmp_float_Z f (trunc_Z f) with Some Eq => true | _ => false end
  end.

(** Comparisons of a float64 with an integer constant.  The constant is converted
    to float64, that is, rounded (Go specification, "Representability"; C++: the usual
    arithmetic conversions of an integer literal); a constant beyond the range of
    float64 (in Go) or of the integer types (in C++) does not compile. *)
Definition num_const (m : Z) : Z :=
  match float_of_Z m with Some g => trunc_Z g | None => m end.
Definition float_cmp (f : spec_float) (m : Z) : option comparison := cmp_float_Z f (num_const m).

(** [x > m], or [x >= m] unless exclusive. *)
Definition over (exclusive : bool) (c : option comparison) : bool :=
  match c with Some Gt => true | Some Eq => negb exclusive | _ => false end.
(** [x < m], or [x <= m] unless exclusive. *)
Definition under (exclusive : bool) (c : option comparison) : bool :=
  match c with Some Lt => true | Some Eq => negb exclusive | _ => false end.
