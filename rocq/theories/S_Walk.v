(** What the value types and the patterns of a graph are. *)
From Verif Require Import Base M_Schema M_Dec.
From Coq Require Import String List Arith NArith ZArith Bool.
Import ListNotations.
Open Scope list_scope.

(** [inside t n u]: [u] is [t], or the type of the values in [t], or the type of
    the values of these, ..., at the [n]-th level. *)
Inductive inside : ty -> nat -> ty -> Prop :=
| inside_itself t : inside t 0 t
| inside_array values mn mx n u : inside values n u -> inside (TArray values mn mx) (S n) u
| inside_map values n u : inside values n u -> inside (TMap values) (S n) u.

(** The composites: their references and properties. *)
Inductive composite (g : graph) : str -> list prop -> Prop :=
| composite_class c : In c (g_classes g) -> composite g (c_ref c) (c_props c)
| composite_embed e : In e (g_embeds g) -> composite g (e_ref e) (e_props e)
| composite_graph : composite g (g_ref g) (g_props g).

Fixpoint levels (n : nat) : str := match n with O => [] | S n => s_ "/values" ++ levels n end.

(** [t] is a value type of the graph, defined at [ref]. *)
Inductive value_type (g : graph) (t : ty) (ref : str) : Prop :=
| value_type_at r ps p n :
    composite g r ps -> In p ps -> inside (p_type p) n t ->
    ref = r ++ s_ "/" ++ p_name p ++ levels n ->
    value_type g t ref.

(** The references as mapry/parse.py:269-364 assigns them: by position in the
    lists of classes and embeds (the names in a schema do not contain slashes). *)
Definition parsed_refs (g : graph) : Prop :=
  (forall i c, nth_error (g_classes g) i = Some c -> c_ref c = g_ref g ++ s_ "/classes/" ++ dec_nat i) /\
  (forall i e, nth_error (g_embeds g) i = Some e -> e_ref e = g_ref g ++ s_ "/embeds/" ++ dec_nat i) /\
  (forall r ps, composite g r ps ->
     NoDup (map p_name ps) /\ forall p, In p ps -> ~ In 47%N (p_name p)).

(** The pattern [p] occurs in the graph. *)
Inductive pattern_of (g : graph) (p : str) : Prop :=
| pattern_of_id c : In c (g_classes g) -> c_id_pattern c = Some p -> pattern_of g p
| pattern_of_string ref : value_type g (TStr (Some p)) ref -> pattern_of g p
| pattern_of_path ref : value_type g (TPath (Some p)) ref -> pattern_of g p.
