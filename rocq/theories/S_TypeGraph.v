(** Specification of reachability in a heap of type objects. *)
From Verif Require Import Base M_TypeGraph.
From Coq Require Import List Arith NArith.
Import ListNotations.

(** [edge h a b]: the object at [a] directly refers to the type at [b]. *)
Inductive edge (h : heap) : addr -> addr -> Prop :=
| e_array a v : nth_error h a = Some (OArray v) -> edge h a v
| e_map a v : nth_error h a = Some (OMap v) -> edge h a v
| e_embed a n ps b : nth_error h a = Some (OEmbed n ps) -> In b ps -> edge h a b
| e_class a n ps b : nth_error h a = Some (OClass n ps) -> In b ps -> edge h a b
| e_graph_class a cs es ps b : nth_error h a = Some (OGraph cs es ps) -> In b cs -> edge h a b
| e_graph_embed a cs es ps b : nth_error h a = Some (OGraph cs es ps) -> In b es -> edge h a b
| e_graph_prop a cs es ps b : nth_error h a = Some (OGraph cs es ps) -> In b ps -> edge h a b.

(** Reflexive-transitive closure. *)
Inductive reach (h : heap) : addr -> addr -> Prop :=
| r_refl a : reach h a a
| r_step a b c : edge h a b -> reach h b c -> reach h a c.

(** Addresses do not dangle. *)
Definition heap_wf (h : heap) : Prop := forall a b, edge h a b -> b < length h.

(** The graph object is never the type of a property (schemas have one graph,
    which is not a value type). *)
Definition graph_is_root (h : heap) : Prop :=
  forall a b, edge h a b -> forall cs es ps, nth_error h b <> Some (OGraph cs es ps).

(** Class names identify classes. *)
Definition names_unique (h : heap) : Prop :=
  forall a b n ps qs, nth_error h a = Some (OClass n ps) -> nth_error h b = Some (OClass n qs) -> a = b.

(** Strict lexicographic order of strings. *)
Inductive str_lt : str -> str -> Prop :=
| lt_nil c s : str_lt [] (c :: s)
| lt_head c d s t : (c < d)%N -> str_lt (c :: s) (d :: t)
| lt_tail c s t : str_lt s t -> str_lt (c :: s) (c :: t).

(** The Python class of a type object. *)
Definition kind_of (o : tobj) : kind :=
  match o with
  | OPrim p => KPrim p
  | OArray _ => KArray
  | OMap _ => KMap
  | OEmbed _ _ => KEmbed
  | OClass _ _ => KClass
  | OGraph _ _ _ => KGraph
  end.

Definition has_kind (h : heap) (a : addr) (q : kind) : Prop :=
  exists o, nth_error h a = Some o /\ kind_of o = q.

(** [p] is the address of a value type (anything but the graph). *)
Definition value_type (h : heap) (p : addr) : Prop :=
  p < length h /\ forall cs es ps, nth_error h p <> Some (OGraph cs es ps).

(** [a] precedes [b] in the lexicographic order of class names. *)
Definition name_before (h : heap) (a b : addr) : Prop :=
  exists n ps m qs, nth_error h a = Some (OClass n ps) /\ nth_error h b = Some (OClass m qs) /\ str_lt n m.
