(** When C++ and Go accept the definitions of types. *)
From Coq Require Import String List Arith NArith ZArith Bool.
From Verif Require Import Base M_Schema M_TypeDefs.
Import ListNotations.
Open Scope list_scope.

(** * C++ *)

(** A field of the type requires the definition of the structure [n]: it contains an
    instance.  (A vector or a map as a field does not contain its items.) *)
Inductive cpp_contains : cpp_type -> str -> Prop :=
| cpp_contains_itself n : cpp_contains (CNamed n) n
| cpp_contains_optional t n : cpp_contains t n -> cpp_contains (COptional t) n.

(** The type mentions [n]. *)
Inductive cpp_mentions : cpp_type -> str -> Prop :=
| cpp_mentions_itself n : cpp_mentions (CNamed n) n
| cpp_mentions_pointer t n : cpp_mentions t n -> cpp_mentions (CPointer t) n
| cpp_mentions_vector t n : cpp_mentions t n -> cpp_mentions (CVector t) n
| cpp_mentions_map t n : cpp_mentions t n -> cpp_mentions (CMapTo t) n
| cpp_mentions_optional t n : cpp_mentions t n -> cpp_mentions (COptional t) n.

(** Every structure is declared before it is mentioned, ... *)
Definition declared_before (h : list header_item) : Prop :=
  forall before m fields after t n,
    h = before ++ Defines m fields :: after -> In t fields -> cpp_mentions t n -> In (Declares n) before.

(** ... and it is defined before another one contains it. *)
Definition defined_before (h : list header_item) : Prop :=
  forall before m fields after t n,
    h = before ++ Defines m fields :: after -> In t fields -> cpp_contains t n ->
    exists fs, In (Defines n fs) before.

(** The properties of each embeddable structure contain only structures which are
    listed before it in the schema. *)
Definition embeds_in_order (g : graph) : Prop :=
  forall before e after p n,
    g_embeds g = before ++ e :: after -> In p (e_props e) -> p_type p = TEmbed n -> In n (map e_name before).

(** * Go *)

(** The structure [m] contains the structure [n]. *)
Definition go_contains (structs : list (str * list go_type)) (m n : str) : Prop :=
  exists fields, In (m, fields) structs /\ In (GNamed n) fields.
Inductive go_contains_deep (structs : list (str * list go_type)) : str -> str -> Prop :=
| go_deep_field m n : go_contains structs m n -> go_contains_deep structs m n
| go_deep_nested m n o : go_contains structs m n -> go_contains_deep structs n o -> go_contains_deep structs m o.

(** Go refuses structures which contain themselves. *)
Definition go_finite (structs : list (str * list go_type)) : Prop := forall n, ~ go_contains_deep structs n n.

(** Every instance of the embeddable structure [m] has an instance of [n] in a required
    property, or in a required property of one of its structures, ... *)
Inductive requires (g : graph) : str -> str -> Prop :=
| requires_property e p n :
    In e (g_embeds g) -> In p (e_props e) -> p_optional p = false -> p_type p = TEmbed n -> requires g (e_name e) n
| requires_nested m n o : requires g m n -> requires g n o -> requires g m o.
