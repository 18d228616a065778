(** Model of mapry/naming.py, mapry/py/naming.py and mapry/cpp/naming.py. *)
From Verif Require Import Base.
From Coq Require Import String Ascii List NArith Bool.
Import ListNotations.

(** Results of Python calls that may raise. *)
Inductive exn :=
| IndexError        (** out-of-range indexing *)
| ValueError        (** contracts with [error=ValueError] *)
| ViolationError    (** icontract's default exception *)
| KeyError
| AssertionError
| NotImplementedError
| AttributeError
| TypeError
| OverflowError
| LexeryError       (** lexery.Error *)
| ReError           (** re.error *)
| SchemaErr.        (** mapry.validation.SchemaError *)

Inductive res (A : Type) :=
| Ok (a : A)
| Raise (e : exn).
Arguments Ok {A}. Arguments Raise {A}.

Definition bind {A B} (r : res A) (f : A -> res B) : res B :=
  match r with Ok a => f a | Raise e => Raise e end.
Definition is_ok {A} (r : res A) : bool := match r with Ok _ => true | _ => false end.

Notation "'do' x <- r ; f" := (bind r (fun x => f)) (at level 60, x pattern, right associativity).

Definition underscore : chr := 95%N.

(** mapry/naming.py:8-31 *)
Definition split_identifier (identifier : str) : list str := split_on underscore identifier.

(** mapry/naming.py:34-45: the table with its capitalized twins (the loop at
    43-45 is unrolled). *)
Definition PLURAL_TABLE : list (str * str) :=
  [ (s_ "criterion", s_ "criteria");
    (s_ "minimum", s_ "minima");
    (s_ "maximum", s_ "maxima");
    (s_ "matrix", s_ "matrices");
    (s_ "life", s_ "lives");
    (s_ "focus", s_ "foci");
    (s_ "Criterion", s_ "Criteria");
    (s_ "Minimum", s_ "Minima");
    (s_ "Maximum", s_ "Maxima");
    (s_ "Matrix", s_ "Matrices");
    (s_ "Life", s_ "Lives");
    (s_ "Focus", s_ "Foci") ].

(** mapry/naming.py:48-91 *)
Definition plural (identifier : str) : str :=
  let parts := split_identifier identifier in
  let last_part := last parts [] in
  match lookup last_part PLURAL_TABLE with
  | Some p => p
  | None =>
      if ends_with (s_ "ay") last_part || ends_with (s_ "ey") last_part
         || ends_with (s_ "iy") last_part || ends_with (s_ "oy") last_part
         || ends_with (s_ "uy") last_part
      then identifier ++ s_ "s"
      else if ends_with (s_ "y") last_part
      then removelast identifier ++ s_ "ies"
      else if ends_with (s_ "x") last_part || ends_with (s_ "s") last_part
      then identifier ++ s_ "es"
      else identifier ++ s_ "s"
  end.

(** [identifier[0] in string.ascii_uppercase] for a non-empty identifier. *)
Definition initial_upper (s : str) : bool :=
  match s with c :: _ => is_upper c | [] => false end.

(** mapry/naming.py:94-108 *)
Definition json_plural (a_plural : str) : res str :=
  if initial_upper a_plural then Ok (lower a_plural) else Raise ViolationError.

(** [part[0].upper() + part[1:]] *)
Definition capitalize_part (part : str) : res str :=
  match part with
  | [] => Raise IndexError
  | c :: rest => Ok (upper_c c :: rest)
  end.

(** The loop [for part in parts[1:]], naming.py:142-143 and 178-179. *)
Fixpoint capitalize_parts (parts : list str) : res (list str) :=
  match parts with
  | [] => Ok []
  | p :: ps => do q <- capitalize_part p; do qs <- capitalize_parts ps; Ok (q :: qs)
  end.

(** mapry/naming.py:111-145, with the two postconditions as checks. *)
Definition camel_case (identifier : str) : res str :=
  match identifier with
  | [] => Raise ValueError
  | _ =>
    match split_identifier identifier with
    | [] => Raise IndexError
    | p :: ps =>
        do qs <- capitalize_parts ps;
        let result := concat (lower p :: qs) in
        match result with
        | [] => Raise ViolationError
        | c :: _ => if N.eqb c (lower_c c) then Ok result else Raise ViolationError
        end
    end
  end.

(** mapry/naming.py:148-181 *)
Definition ucamel_case (identifier : str) : res str :=
  match identifier with
  | [] => Raise ValueError
  | _ =>
    do qs <- capitalize_parts (split_identifier identifier);
    let result := concat qs in
    match result with
    | [] => Raise ViolationError
    | c :: _ => if N.eqb c (upper_c c) then Ok result else Raise ViolationError
    end
  end.

(** mapry/py/naming.py:10-26 (as_attribute) and mapry/cpp/naming.py:10-26 (as_field). *)
Definition as_attribute (identifier : str) : res str :=
  match identifier with [] => Raise ValueError | _ => Ok (lower identifier) end.
Definition as_field := as_attribute.

(** mapry/py/naming.py:29-47 and mapry/cpp/naming.py:29-47 *)
Definition as_variable (identifier : str) : res str :=
  if initial_upper identifier then Ok (lower identifier) else Raise ValueError.

(** mapry/py/naming.py:50-69 and mapry/cpp/naming.py:50-68 *)
Definition as_composite (identifier : str) : res str :=
  if initial_upper identifier then ucamel_case identifier else Raise ValueError.

(** ** Name patterns *)

(** Python's [$] also matches before one trailing newline. *)
Definition py_dollar (p : str -> bool) (s : str) : bool :=
  p s || (match rev s with 10%N :: r => p (rev r) | _ => false end).

(** [first([a-zA-Z0-9_]*[a-zA-Z0-9])?] on the whole string. *)
Definition ident_shape (first : chr -> bool) (s : str) : bool :=
  match s with
  | [] => false
  | c :: rest => first c && forallb is_word rest && is_alnum (last s 95%N)
  end.

(** mapry/validation.py:104 [_PROPERTY_RE], [^[a-zA-Z]([a-zA-Z0-9_]*[a-zA-Z0-9])?$]. *)
Definition property_re (s : str) : bool := py_dollar (ident_shape is_alpha) s.

(** mapry/schemas.py: class name and plural, [^[A-Z]([a-zA-Z0-9_]*[a-zA-Z0-9])?$]. *)
Definition class_name_re (s : str) : bool := py_dollar (ident_shape is_upper) s.

(** mapry/schemas.py: graph and embed names, [^[A-Z][A-Za-z0-9]*] with no [$]:
    a search only requires an initial capital. *)
Definition graph_name_re (s : str) : bool := initial_upper s.
