(** Specification: documents and graphs shared by the generated code of the three
    languages (C20). *)
From Coq Require Import String List ZArith NArith Floats.SpecFloat.
From Verif Require Import Base M_Naming M_Errors M_Schema M_Num M_PyGen M_GoGen M_CppGen S_Conform S_Common S_PyGen S_PySer S_GoGen S_CppGen.
Import ListNotations.
Local Open Scope nat_scope.

(** ** The same document, as read by two JSON libraries *)

(** A number without fraction may be an integer for one library and a float for the
    other, provided that the integer is a float64; everything else is equal, up to
    the order of the members. *)
Inductive same_doc : jval -> jval -> Prop :=
| sd_null : same_doc JNull JNull
| sd_bool b : same_doc (JBool b) (JBool b)
| sd_str s : same_doc (JStr s) (JStr s)
| sd_int z : same_doc (JInt z) (JInt z)
| sd_float f : same_doc (JFloat f) (JFloat f)
| sd_int_float z f : representable z -> float_is f z -> same_doc (JInt z) (JFloat f)
| sd_float_int f z : representable z -> float_is f z -> same_doc (JFloat f) (JInt z)
| sd_arr l l' : Forall2 same_doc l l' -> same_doc (JArr l) (JArr l')
| sd_obj l l' :
    (forall k, In k (keys l) <-> In k (keys l')) ->
    (forall k v v', In (k, v) l -> In (k, v') l' -> same_doc v v') ->
    same_doc (JObj l) (JObj l').

(** Go reads every number as a float. *)
Definition only_floats : jval -> Prop := all_ints (fun _ => False).

(** The text [s] occurs in the document, as a value or as a key. *)
Inductive occurs (s : str) : jval -> Prop :=
| oc_str : occurs s (JStr s)
| oc_arr l v : In v l -> occurs s v -> occurs s (JArr l)
| oc_key l v : In (s, v) l -> occurs s (JObj l)
| oc_obj l k v : In (k, v) l -> occurs s v -> occurs s (JObj l).

Section Documents.
  Variable G : graph.

  (** The type of the elements of (nested) arrays and maps. *)
  Fixpoint element (t : ty) : ty :=
    match t with TArray t' _ _ | TMap t' => element t' | _ => t end.
  (** [t] is the type of a scalar somewhere in the schema. *)
  Definition scalar_in (t : ty) : Prop :=
    exists ps p, In ps (composites G) /\ In p ps /\ element (p_type p) = t.

  (** Integers of at most 64 bits stand for integers, numbers for floats; an integer
      standing for a float is one. *)
  Definition plain_number (t : ty) (v : jval) : Prop :=
    match t with
    | TInt _ => exists z, v = JInt z /\ int64 z
    | TFloat _ => (exists f, v = JFloat f) \/ (exists z, v = JInt z /\ representable z)
    | _ => True
    end.
  Definition plain : jval -> Prop := graph_conforms G plain_number (fun _ _ => True) py_key.

  (** Every text of the document which is accepted on the one side, as a value of a
      type in the schema or as an identifier, is accepted on the other. *)
  Definition texts_agree (leaf leaf' : ty -> jval -> Prop) (id_ok id_ok' : str -> str -> Prop) (w : jval) : Prop :=
    (forall t s, scalar_in t -> occurs s w -> leaf t (JStr s) -> leaf' t (JStr s)) /\
    (forall c p id, In c (g_classes G) -> c_id_pattern c = Some p -> occurs id w -> id_ok p id -> id_ok' p id).
End Documents.

(** ** Values and graphs of any of the languages *)

(** The scalars are kept as they are. *)
Inductive uval (A : Type) :=
| UNil
| UAtom (a : A)
| UList (l : list (uval A))
| UMap (l : list (str * uval A))
| URef (a : addr)
| UStruct (fields : list (str * uval A)).
Arguments UNil {A}. Arguments UAtom {A}. Arguments UList {A}. Arguments UMap {A}. Arguments URef {A}. Arguments UStruct {A}.

Record uobj (A : Type) := UObj { u_class : str; u_id : str; u_fields : list (str * uval A) }.
Arguments UObj {A}. Arguments u_class {A}. Arguments u_id {A}. Arguments u_fields {A}.
Record ugraph (A : Type) := UGraph {
  ug_fields : list (str * uval A);
  ug_registry : cls -> list (str * addr);
  ug_heap : list (uobj A) }.
Arguments UGraph {A}. Arguments ug_fields {A}. Arguments ug_registry {A}. Arguments ug_heap {A}.

Fixpoint of_py (x : pyval) : uval pyval :=
  match x with
  | PVNone => UNil
  | PVList l => UList (map of_py l)
  | PVDict l => UMap (map (fun kx => (fst kx, of_py (snd kx))) l)
  | PVRef a => URef a
  | PVEmbed _ l => UStruct (map (fun kx => (fst kx, of_py (snd kx))) l)
  | _ => UAtom x
  end.
Definition members_py (l : list (str * pyval)) := map (fun kx => (fst kx, of_py (snd kx))) l.
Definition py_view (pg : pygraph) : ugraph pyval :=
  UGraph (members_py (pg_attrs pg))
         (fun c => match lookup (attr (c_plural c)) (pg_registries pg) with Some r => r | None => [] end)
         (map (fun i => UObj (M_PyGen.i_class i) (M_PyGen.i_id i) (members_py (i_attrs i))) (pg_heap pg)).

Fixpoint of_go {T} (x : goval T) : uval (goval T) :=
  match x with
  | GNil => UNil
  | GList l => UList (map of_go l)
  | GMap l => UMap (map (fun kx => (fst kx, of_go (snd kx))) l)
  | GRef a => URef a
  | GStruct l => UStruct (map (fun kx => (fst kx, of_go (snd kx))) l)
  | _ => UAtom x
  end.
Definition members_go {T} (l : list (str * goval T)) := map (fun kx => (fst kx, of_go (snd kx))) l.
Definition go_view {T} (gg : gograph T) : ugraph (goval T) :=
  UGraph (members_go (gg_fields gg)) (fun c => registry (gg_registries gg) c)
         (map (fun i => UObj (o_class i) (o_id i) (members_go (o_fields i))) (gg_heap gg)).

Fixpoint of_cpp {T} (x : cval T) : uval (cval T) :=
  match x with
  | CNil => UNil
  | CList l => UList (map of_cpp l)
  | CMap l => UMap (map (fun kx => (fst kx, of_cpp (snd kx))) l)
  | CRef a => URef a
  | CStruct l => UStruct (map (fun kx => (fst kx, of_cpp (snd kx))) l)
  | _ => UAtom x
  end.
Definition members_cpp {T} (l : list (str * cval T)) := map (fun kx => (fst kx, of_cpp (snd kx))) l.
Definition cpp_view {T} (g : cgraph T) : ugraph (cval T) :=
  UGraph (members_cpp (cg_fields g)) (fun c => cregistry (cg_registries g) c)
         (map (fun i => UObj (i_class i) (i_id i) (members_cpp (i_fields i))) (cg_heap g)).

(** What is specific to a language: how booleans and numbers are represented, which
    value a text stands for, and the name of the field of a property. *)
Record lang := Lang {
  l_val : Type;
  l_bool : bool -> l_val;
  l_int : Z -> l_val;
  l_float : spec_float -> l_val;
  l_text : ty -> str -> l_val -> Prop;
  l_name : str -> str }.

Definition Python (X : ext) (S : py_settings) : lang :=
  Lang pyval PVBool PVInt PVFloat (fun t s => scalar_rep X S t (JStr s)) attr.
Definition Go_ (X : gext) : lang :=
  Lang (goval (g_time X)) GBool GInt GFloat (fun t s => go_scalar_rep X t (JStr s)) field.
Definition Cpp_ (X : cext) : lang :=
  Lang (cval (cx_time X)) CBool CInt CFloat (fun t s => cpp_scalar_rep X t (JStr s)) (fun n => n).

(** ** The same graph in two languages *)
Section Same.
  Variables L L' : lang.
  Variable G : graph.

  (** The same float, or both the same integer (negative zero is zero). *)
  Definition same_float (f g : spec_float) : Prop := f = g \/ exists z, float_is f z /\ float_is g z.

  (** Texts, paths, dates, times, time zones and durations are the same if they are
      what the languages read from the same text. *)
  Definition same_scalar (t : ty) (a : l_val L) (b : l_val L') : Prop :=
    match t with
    | TBool => exists x, a = l_bool L x /\ b = l_bool L' x
    | TInt _ => exists z, a = l_int L z /\ b = l_int L' z
    | TFloat _ => exists f g, a = l_float L f /\ b = l_float L' g /\ same_float f g
    | _ => exists s, l_text L t s a /\ l_text L' t s b
    end.

  Section Values.
    Variable same : addr -> addr -> Prop.

    Inductive same_value : ty -> uval (l_val L) -> uval (l_val L') -> Prop :=
    | sv_scalar t a b : scalar t = true -> same_scalar t a b -> same_value t (UAtom a) (UAtom b)
    | sv_array t mn mx xs ys : Forall2 (same_value t) xs ys -> same_value (TArray t mn mx) (UList xs) (UList ys)
    | sv_map t xs ys :
        NoDup (keys xs) -> NoDup (keys ys) -> (forall k, In k (keys xs) <-> In k (keys ys)) ->
        (forall k x y, In (k, x) xs -> In (k, y) ys -> same_value t x y) ->
        same_value (TMap t) (UMap xs) (UMap ys)
    | sv_ref n a b : same a b -> same_value (TClass n) (URef a) (URef b)
    | sv_embed n e xs ys :
        find_embed G n = Some e ->
        (forall p, In p (e_props e) ->
           exists x y, lookup (l_name L (p_name p)) xs = Some x /\ lookup (l_name L' (p_name p)) ys = Some y /\
             ((x = UNil /\ y = UNil) \/ same_value (p_type p) x y)) ->
        same_value (TEmbed n) (UStruct xs) (UStruct ys).

    (** Every property has the same value in both, or is unset in both. *)
    Definition same_fields (ps : list prop) (xs : list (str * uval (l_val L))) (ys : list (str * uval (l_val L'))) : Prop :=
      forall p, In p ps ->
        exists x y, lookup (l_name L (p_name p)) xs = Some x /\ lookup (l_name L' (p_name p)) ys = Some y /\
          ((x = UNil /\ y = UNil) \/ same_value (p_type p) x y).
  End Values.

  (** A one-to-one correspondence of the registered instances under which the
      registries, the identifiers and all values agree. *)
  Definition same_graph (g : ugraph (l_val L)) (g' : ugraph (l_val L')) : Prop :=
    exists same : addr -> addr -> Prop,
      (forall a a' b, same a b -> same a' b -> a = a') /\
      (forall a b b', same a b -> same a b' -> b = b') /\
      same_fields same (g_props G) (ug_fields g) (ug_fields g') /\
      forall c, In c (g_classes G) ->
        (forall id, In id (keys (ug_registry g c)) <-> In id (keys (ug_registry g' c))) /\
        forall id a b, In (id, a) (ug_registry g c) -> In (id, b) (ug_registry g' c) ->
          same a b /\
          exists i j, nth_error (ug_heap g) a = Some i /\ nth_error (ug_heap g') b = Some j /\
            u_class i = c_name c /\ u_class j = c_name c /\ u_id i = id /\ u_id j = id /\
            same_fields same (c_props c) (u_fields i) (u_fields j).
End Same.

(** ** Schemas and graphs which can be exchanged *)

(** Names are not confused in any of the languages, and the bounds are exact. *)
Definition ready (G : graph) : Prop :=
  attrs_distinct G /\ registries_distinct G /\ fields_distinct G /\
  cfields_distinct G /\ names_lower G /\ bounds_exact G.
(** Nor are the keys in the JSON representation. *)
Definition keys_ready (G : graph) : Prop :=
  (forall ps, In ps (composites G) -> NoDup (map p_json ps)) /\
  NoDup (map p_json (g_props G) ++ map py_key (g_classes G)).

(** A Python value which survives being written, with integers of at most 64 bits
    which are not booleans. *)
Definition py_portable (X : ext) (S : py_settings) (t : ty) (x : pyval) : Prop :=
  py_canon X S t x /\ match t with TInt _ => exists z, x = PVInt z /\ int64 z | _ => True end.

(** ** Who accepts what *)

(** The parser returned the graph without errors. *)
Definition py_accepts X S G w pg : Prop :=
  exists ref (es : errs), (0 < py_cap es)%Z /\ py_values es = [] /\ graph_from X S G w ref es = Ok (Some pg, es).
Definition go_accepts X G w gg : Prop :=
  exists order ref cap, visits_all order /\
    go_graph_from X G order w ref (go_errors_new cap) = Done (Some gg, go_errors_new cap).
Definition cpp_accepts X G w g : Prop :=
  exists order ref cap, visits_all order /\ (0 < cap)%N /\
    cpp_graph_from X G order w ref (cpp_errors_new cap) = CDone (Some g, cpp_errors_new cap).

(** However it is called, the parser returns a graph as described, without errors. *)
Definition py_takes X S G w (Q : pygraph -> Prop) : Prop :=
  forall ref (es : errs), (0 < py_cap es)%Z -> py_values es = [] ->
    exists pg, graph_from X S G w ref es = Ok (Some pg, es) /\ Q pg.
Definition go_takes X G w (Q : gograph (g_time X) -> Prop) : Prop :=
  forall order ref cap, visits_all order ->
    exists gg, go_graph_from X G order w ref (go_errors_new cap) = Done (Some gg, go_errors_new cap) /\ Q gg.
Definition cpp_takes X G w (Q : cgraph (cx_time X) -> Prop) : Prop :=
  forall order ref cap, visits_all order -> (0 < cap)%N ->
    exists g, cpp_graph_from X G order w ref (cpp_errors_new cap) = CDone (Some g, cpp_errors_new cap) /\ Q g.
