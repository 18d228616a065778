(** Specification: when a JSON value conforms to a schema.  Shared by the Python,
    Go and C++ parsers, which differ only in what they accept as a scalar. *)
From Verif Require Import Base M_Schema.
From Coq Require Import List ZArith.
Import ListNotations.

(** The types which contain no further values. *)
Definition scalar (t : ty) : bool :=
  match t with TArray _ _ _ | TMap _ | TClass _ | TEmbed _ => false | _ => true end.

Definition size_ok (mn mx : option Z) (n : nat) : Prop :=
  (forall m, mn = Some m -> (m <= Z.of_nat n)%Z) /\
  (forall m, mx = Some m -> (Z.of_nat n <= m)%Z).

(** A property without value in a JSON object. *)
Definition absent (k : str) (l : list (str * jval)) : Prop :=
  lookup k l = None \/ lookup k l = Some JNull.

Section Conform.
  Variable G : graph.
  (** [leaf t v]: [v] is a text or number of the scalar type [t]. *)
  Variable leaf : ty -> jval -> Prop.
  (** [id_ok p id]: the identifier [id] matches the pattern [p]. *)
  Variable id_ok : str -> str -> Prop.
  (** The key of the registry of a class in the JSON representation. *)
  Variable key : cls -> str.

  Section Known.
    (** [known n id]: there is an instance of class [n] with identifier [id]. *)
    Variable known : str -> str -> Prop.

    Inductive conforms : ty -> jval -> Prop :=
    | conf_scalar t v : scalar t = true -> leaf t v -> conforms t v
    | conf_array t mn mx l :
        size_ok mn mx (length l) -> (forall v, In v l -> conforms t v) ->
        conforms (TArray t mn mx) (JArr l)
    | conf_map t l :
        (forall k v, In (k, v) l -> conforms t v) -> conforms (TMap t) (JObj l)
    | conf_ref n id : known n id -> conforms (TClass n) (JStr id)
    | conf_embed n e l :
        find_embed G n = Some e ->
        (forall p, In p (e_props e) ->
           (p_optional p = true /\ absent (p_json p) l) \/
           (exists v, lookup (p_json p) l = Some v /\ v <> JNull /\ conforms (p_type p) v)) ->
        conforms (TEmbed n) (JObj l).

    Definition fields_conform (ps : list prop) (l : list (str * jval)) : Prop :=
      forall p, In p ps ->
        (p_optional p = true /\ absent (p_json p) l) \/
        (exists v, lookup (p_json p) l = Some v /\ v <> JNull /\ conforms (p_type p) v).
  End Known.

  (** The instances listed in the registries of a JSON graph [l]. *)
  Definition listed (l : list (str * jval)) (n id : str) : Prop :=
    exists c m, find_class G n = Some c /\ lookup (key c) l = Some (JObj m) /\ In id (keys m).

  Definition instance_conforms (l : list (str * jval)) (c : cls) (id : str) (v : jval) : Prop :=
    (forall p, c_id_pattern c = Some p -> id_ok p id) /\
    exists o, v = JObj o /\ fields_conform (listed l) (c_props c) o.

  Definition graph_conforms (v : jval) : Prop :=
    exists l, v = JObj l /\
      (forall c, In c (g_classes G) ->
         lookup (key c) l = None \/
         exists m, lookup (key c) l = Some (JObj m) /\
                   forall id v, In (id, v) m -> instance_conforms l c id v) /\
      fields_conform (listed l) (g_props G) l.
End Conform.

(** A number within the bounds. *)
Definition in_range (b : bounds) (z : Z) : Prop :=
  (forall m, b_min b = Some m -> if b_exmin b then (m < z)%Z else (m <= z)%Z) /\
  (forall m, b_max b = Some m -> if b_exmax b then (z < m)%Z else (z <= m)%Z).
Definition float_in_range (b : bounds) (f : SpecFloat.spec_float) : Prop :=
  (forall m, b_min b = Some m ->
     cmp_float_Z f m = Some Gt \/ (b_exmin b = false /\ cmp_float_Z f m = Some Eq)) /\
  (forall m, b_max b = Some m ->
     cmp_float_Z f m = Some Lt \/ (b_exmax b = false /\ cmp_float_Z f m = Some Eq)).

(** JSON objects have distinct keys (what [json.load] returns is a dict). *)
Inductive json_wf : jval -> Prop :=
| jwf_null : json_wf JNull
| jwf_bool b : json_wf (JBool b)
| jwf_int z : json_wf (JInt z)
| jwf_float f : json_wf (JFloat f)
| jwf_str s : json_wf (JStr s)
| jwf_arr l : (forall v, In v l -> json_wf v) -> json_wf (JArr l)
| jwf_obj l : NoDup (keys l) -> (forall k v, In (k, v) l -> json_wf v) -> json_wf (JObj l).

(** The classes and embeds named by a type exist. *)
Fixpoint ty_resolved (G : graph) (t : ty) : Prop :=
  match t with
  | TArray t' _ _ | TMap t' => ty_resolved G t'
  | TClass n => find_class G n <> None
  | TEmbed n => find_embed G n <> None
  | _ => True
  end.

Definition composites (G : graph) : list (list prop) :=
  map c_props (g_classes G) ++ map e_props (g_embeds G) ++ [g_props G].

Definition resolved (G : graph) : Prop :=
  forall ps p, In ps (composites G) -> In p ps -> ty_resolved G (p_type p).

(** Every integer in the value satisfies [P]. *)
Inductive all_ints (P : Z -> Prop) : jval -> Prop :=
| ints_null : all_ints P JNull
| ints_bool b : all_ints P (JBool b)
| ints_int z : P z -> all_ints P (JInt z)
| ints_float f : all_ints P (JFloat f)
| ints_str s : all_ints P (JStr s)
| ints_arr l : (forall v, In v l -> all_ints P v) -> all_ints P (JArr l)
| ints_obj l : (forall k v, In (k, v) l -> all_ints P v) -> all_ints P (JObj l).
