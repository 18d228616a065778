(** Notions shared by the specifications of the generated Go and C++ code. *)
From Verif Require Import Base M_Naming M_Dec M_Schema M_Num S_Conform.
From Coq Require Import List NArith ZArith Floats.SpecFloat Permutation.
Import ListNotations.

(** A loop over a map or an object visits every entry once, in any order. *)
Definition visits_all (order : forall A : Type, nat -> str -> list (str * A) -> list (str * A)) : Prop :=
  forall A n ref (l : list (str * A)), Permutation l (order A n ref l).

Definition int64 (z : Z) : Prop := (- 2 ^ 63 <= z < 2 ^ 63)%Z.

(** The float [f] is the number [z]. *)
Definition float_is (f : spec_float) (z : Z) : Prop := cmp_float_Z f z = Some Eq.

(** The integer is a float64. *)
Definition representable (z : Z) : Prop := exists f, float_of_Z z = Some f /\ float_is f z.

Definition is_finite (f : spec_float) : bool :=
  match f with S754_nan | S754_infinity _ => false | _ => true end.

Fixpoint all_some {A} (l : list (option A)) : option (list A) :=
  match l with
  | [] => Some []
  | Some a :: l' => option_map (cons a) (all_some l')
  | None :: _ => None
  end.

(** The bounds of floating-point numbers are floats themselves. *)
Fixpoint ty_bounds_exact (t : ty) : Prop :=
  match t with
  | TFloat b => (forall m, b_min b = Some m -> representable m) /\
                (forall m, b_max b = Some m -> representable m)
  | TArray t' _ _ | TMap t' => ty_bounds_exact t'
  | _ => True
  end.
Definition bounds_exact (G : graph) : Prop :=
  forall ps p, In ps (composites G) -> In p ps -> ty_bounds_exact (p_type p).

(** No null occurs in the value. *)
Inductive no_null : jval -> Prop :=
| nn_bool b : no_null (JBool b)
| nn_int z : no_null (JInt z)
| nn_float f : no_null (JFloat f)
| nn_str s : no_null (JStr s)
| nn_arr l : (forall v, In v l -> no_null v) -> no_null (JArr l)
| nn_obj l : (forall k v, In (k, v) l -> no_null v) -> no_null (JObj l).
