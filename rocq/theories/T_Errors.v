(** C01: the error containers are capped logs. *)
From Verif Require Import Base M_Errors P_Errors.
From Coq Require Import List ZArith NArith Bool.
Import ListNotations.

(** After any sequence [es] of additions to a fresh Python container the stored
    errors are the first [cap] of them; it is full iff at least [cap] errors
    were added and empty iff none was. *)
Theorem C01_python_errors : forall (E : Type) (cap : Z) (es : list E),
  let st := fold_left py_add es (py_errors_new cap) in
  py_values st = firstn (Z.to_nat cap) es /\
  (Z.of_nat (length (py_values st)) <= Z.max 0 cap)%Z /\
  ((0 <= cap)%Z -> (py_full st = true <-> (Z.of_nat (length es) >= cap)%Z)) /\
  ((0 < cap)%Z -> (py_empty st = true <-> es = [])).
Proof. exact @py_container. Qed.

(** Go: capacity 0 means unbounded. *)
Theorem C01_go_errors : forall (E : Type) (cap : N) (es : list E),
  let st := fold_left go_add es (go_errors_new cap) in
  (cap = 0%N -> go_values st = es /\ go_full st = false) /\
  (cap <> 0%N -> go_values st = firstn (N.to_nat cap) es /\
     (go_full st = true <-> (N.of_nat (length es) >= cap)%N)) /\
  (go_empty st = true <-> es = []).
Proof. exact @go_container. Qed.

Theorem C01_cpp_errors : forall (E : Type) (cap : N) (es : list E),
  let st := fold_left cpp_add es (cpp_errors_new cap) in
  cpp_values st = firstn (N.to_nat cap) es /\
  (N.of_nat (length (cpp_values st)) <= cap)%N /\
  (cpp_full st = true <-> (N.of_nat (length es) >= cap)%N) /\
  ((0 < cap)%N -> (cpp_empty st = true <-> es = [])).
Proof. exact @cpp_container. Qed.

(** Non-vacuity: three additions to containers of capacity 2. *)
Example C01_python_example :
  fold_left py_add [1; 2; 3]%nat (py_errors_new 2) = PyErrors 2 [1; 2]%nat.
Proof. reflexivity. Qed.
Example C01_go_example :
  fold_left go_add [1; 2; 3]%nat (go_errors_new 0) = GoErrors 0 [1; 2; 3]%nat.
Proof. reflexivity. Qed.
Example C01_cpp_example :
  cpp_full (fold_left cpp_add [1; 2; 3]%nat (cpp_errors_new 2)) = true.
Proof. reflexivity. Qed.

Print Assumptions C01_python_errors.
Print Assumptions C01_go_errors.
Print Assumptions C01_cpp_errors.
