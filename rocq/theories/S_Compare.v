(** The operators by which Go and C++ compare. *)
From Coq Require Import String.

Inductive equality := IsEqual | IsUnequal.
Inductive order := IsLess | IsAtMost | IsGreater | IsAtLeast.
(** As they are written *)
Definition equality_text (o : equality) : string := match o with IsEqual => "==" | IsUnequal => "!=" end.
Definition order_text (o : order) : string := match o with IsLess => "<" | IsAtMost => "<=" | IsGreater => ">" | IsAtLeast => ">=" end.
