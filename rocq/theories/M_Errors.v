(** Model of the generated error containers (Python, Go, C++).
    An error is a pair of a reference and a message; the container code never
    looks inside, hence the element type is a parameter. *)
From Verif Require Import Base.
From Coq Require Import List ZArith NArith Bool.
Import ListNotations.

(** mapry/py/generate/parse.py:43-85 (class Errors).  [py_cap] is a Python int,
    hence possibly zero or negative. *)
Record py_errors (E : Type) := PyErrors { py_cap : Z; py_values : list E }.
Arguments PyErrors {E}. Arguments py_cap {E}. Arguments py_values {E}.

(** parse.py:50-57, [Errors.__init__]. *)
Definition py_errors_new {E} (cap : Z) : py_errors E := PyErrors cap [].

(** parse.py:59-67, [Errors.add]. *)
Definition py_add {E} (st : py_errors E) (e : E) : py_errors E :=
  if (Z.of_nat (length (py_values st)) <? py_cap st)%Z
  then PyErrors (py_cap st) (py_values st ++ [e])
  else st.

(** parse.py:69-71, [Errors.full]. *)
Definition py_full {E} (st : py_errors E) : bool :=
  (Z.of_nat (length (py_values st)) =? py_cap st)%Z.

(** parse.py:73-75, [Errors.empty]. *)
Definition py_empty {E} (st : py_errors E) : bool := (length (py_values st) =? 0)%nat.

(** parse.py:77-79, [Errors.count]. *)
Definition py_count {E} (st : py_errors E) : nat := length (py_values st).

(** mapry/go/generate/parse.py:20-66 (type Errors).  [go_cap] is a uint64; its
    upper bound plays no role and is not modelled. *)
Record go_errors (E : Type) := GoErrors { go_cap : N; go_values : list E }.
Arguments GoErrors {E}. Arguments go_cap {E}. Arguments go_values {E}.

(** go/generate/parse.py:34-38, [NewErrors] (the initial allocation of [cap]
    slots is not modelled). *)
Definition go_errors_new {E} (cap : N) : go_errors E := GoErrors cap [].

(** go/generate/parse.py:52-56, [Add]. *)
Definition go_add {E} (st : go_errors E) (e : E) : go_errors E :=
  if ((go_cap st =? 0) || (N.of_nat (length (go_values st)) <? go_cap st))%N
  then GoErrors (go_cap st) (go_values st ++ [e])
  else st.

(** go/generate/parse.py:59-61, [Full]. *)
Definition go_full {E} (st : go_errors E) : bool :=
  (negb (go_cap st =? 0) && (N.of_nat (length (go_values st)) =? go_cap st))%N.

(** go/generate/parse.py:64-66, [Empty]. *)
Definition go_empty {E} (st : go_errors E) : bool :=
  (N.of_nat (length (go_values st)) =? 0)%N.

(** mapry/cpp/generate/parse_impl.py:20-43; [cap] is a size_t. *)
Record cpp_errors (E : Type) := CppErrors { cpp_cap : N; cpp_values : list E }.
Arguments CppErrors {E}. Arguments cpp_cap {E}. Arguments cpp_values {E}.

(** parse_impl.py:21, constructor. *)
Definition cpp_errors_new {E} (cap : N) : cpp_errors E := CppErrors cap [].

(** parse_impl.py:27-31, [Errors::add]. *)
Definition cpp_add {E} (st : cpp_errors E) (e : E) : cpp_errors E :=
  if (N.of_nat (length (cpp_values st)) <? cpp_cap st)%N
  then CppErrors (cpp_cap st) (cpp_values st ++ [e])
  else st.

(** parse_impl.py:33-35, [Errors::full]. *)
Definition cpp_full {E} (st : cpp_errors E) : bool :=
  (N.of_nat (length (cpp_values st)) =? cpp_cap st)%N.

(** parse_impl.py:37-39, [Errors::empty]. *)
Definition cpp_empty {E} (st : cpp_errors E) : bool :=
  match cpp_values st with [] => true | _ => false end.
