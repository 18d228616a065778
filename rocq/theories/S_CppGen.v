(** Specification of the values handled by the generated C++ code (C18, C19). *)
From Verif Require Import Base M_Naming M_Errors M_Schema M_Duration M_Num M_CppTime M_CppGen S_Conform S_Common.
From Coq Require Import String List ZArith NArith Floats.SpecFloat Permutation.
Import ListNotations.

(** The bytes of a text in UTF-8. *)
Definition utf8 (c : chr) : list N :=
  if (c <? 128)%N then [c]
  else if (c <? 2048)%N then [192 + c / 64; 128 + c mod 64]%N
  else if (c <? 65536)%N then [224 + c / 4096; 128 + c / 64 mod 64; 128 + c mod 64]%N
  else [240 + c / 262144; 128 + c / 4096 mod 64; 128 + c / 64 mod 64; 128 + c mod 64]%N.
Definition bytes (s : str) : nat := length (flat_map utf8 s).

(** The C string [t] which starts where [s] starts. *)
Definition up_to_nul (s t : str) : Prop := ~ In 0%N t /\ (s = t \/ exists rest, s = t ++ 0%N :: rest).

Section Spec.
  Variable X : cext.
  Variable G : graph.
  Notation val := (cval (cx_time X)).

  Definition cmatches (p : option str) (s : str) : Prop :=
    forall q, p = Some q -> cx_match X q s = true.

  (** A number which is an integer. *)
  Definition whole (v : jval) (z : Z) : Prop :=
    v = JInt z \/ exists f, v = JFloat f /\ float_is f z.
  (** A number as the closest double. *)
  Definition double (v : jval) (f : spec_float) : Prop :=
    v = JFloat f \/ exists z, v = JInt z /\ float_of_Z z = Some f.
  (** The text [s] is read as the date or time [t]: with date.h up to the end of the
      format; otherwise all of it, up to the first NUL. *)
  Definition time_text (k : tkind) (format s : str) (t : cx_time X) : Prop :=
    if cx_date_h X then exists rest, cx_date_parse X k format s = Some (t, rest)
    else exists s', up_to_nul s s' /\ cx_strptime X format s' = Some (t, []).
  (** The text [s] names the time zone [z]: with date.h a known one, otherwise it is
      any text. *)
  Definition zone_text (s z : str) : Prop :=
    if cx_date_h X then cx_locate X s = Some z else z = s.

  (** ** What the C++ parser has to accept as a scalar *)
  Definition cpp_leaf (t : ty) (v : jval) : Prop :=
    match t with
    | TBool => exists b, v = JBool b
    | TInt b => exists z, whole v z /\ int64 z /\ in_range b z
    | TFloat b => exists f, double v f /\ float_in_range b f
    | TStr p | TPath p => exists s, v = JStr s /\ cmatches p s
    | TDate f => exists s t, v = JStr s /\ time_text KDate f s t
    | TTime f => exists s t, v = JStr s /\ time_text KTime f s t
    | TDatetime f => exists s t, v = JStr s /\ time_text KDatetime f s t
    | TTimeZone => exists s z, v = JStr s /\ zone_text s z
    | TDuration => exists s d, v = JStr s /\ cpp_dur_from (cx_flag X s) s = CppOk d
    | _ => False
    end.

  Definition cpp_cls_key (c : cls) : str := cpp_key (c_plural c).
  Definition cpp_id_ok (p id : str) : Prop := cx_match X p id = true.

  Definition cpp_conforms : jval -> Prop := graph_conforms G cpp_leaf cpp_id_ok cpp_cls_key.

  (** ** Values satisfying a type *)
  Definition cpp_scalar (t : ty) (x : val) : Prop :=
    match t with
    | TBool => exists b, x = CBool b
    | TInt b => exists z, x = CInt z /\ int64 z /\ in_range b z
    | TFloat b => exists f, x = CFloat f /\ float_in_range b f
    | TStr p | TPath p => exists s, x = CStr s /\ cmatches p s
    | TDate f => exists s t, x = CTime t /\ time_text KDate f s t
    | TTime f => exists s t, x = CTime t /\ time_text KTime f s t
    | TDatetime f => exists s t, x = CTime t /\ time_text KDatetime f s t
    | TTimeZone => exists s z, x = CZone z /\ zone_text s z
    | TDuration => exists s d, x = CDuration d /\ cpp_dur_from (cx_flag X s) s = CppOk d
    | _ => False
    end.

  Section Values.
    Variable scalar_ok : ty -> val -> Prop.
    Variable ref_ok : str -> addr -> Prop.
    (** A condition on the fields of the embedded structures and the instances. *)
    Variable shape_ok : list prop -> list (str * val) -> Prop.

    Inductive csat : ty -> val -> Prop :=
    | csat_scalar t x : scalar t = true -> scalar_ok t x -> csat t x
    | csat_array t mn mx l :
        size_ok mn mx (length l) -> (forall x, In x l -> csat t x) ->
        csat (TArray t mn mx) (CList l)
    | csat_map t l :
        NoDup (keys l) -> (forall k x, In (k, x) l -> csat t x) -> csat (TMap t) (CMap l)
    | csat_ref n a : ref_ok n a -> csat (TClass n) (CRef a)
    | csat_embed n e fields :
        find_embed G n = Some e ->
        keys fields = map p_name (e_props e) ->
        (forall p, In p (e_props e) ->
           exists x, lookup (p_name p) fields = Some x /\
                     ((x = CNil /\ p_optional p = true) \/ (x <> CNil /\ csat (p_type p) x))) ->
        shape_ok (e_props e) fields ->
        csat (TEmbed n) (CStruct fields).

    (** The fields of an object with the properties [ps]; an unset value only for
        an optional property. *)
    Definition cfields_sat (ps : list prop) (fields : list (str * val)) : Prop :=
      keys fields = map p_name ps /\
      forall p, In p ps ->
        exists x, lookup (p_name p) fields = Some x /\
                  ((x = CNil /\ p_optional p = true) \/ (x <> CNil /\ csat (p_type p) x)).
  End Values.

  (** The registry of a class. *)
  Definition cregistry (R : cregistries) (c : cls) : list (str * addr) :=
    match lookup (cfield (c_plural c)) R with Some r => r | None => [] end.

  (** Instance [a] of class [n] is registered, under its own identifier. *)
  Definition cregistered (g : cgraph (cx_time X)) (n : str) (a : addr) : Prop :=
    exists c i,
      find_class G n = Some c /\ nth_error (cg_heap g) a = Some i /\
      lookup (i_id i) (cregistry (cg_registries g) c) = Some a /\ i_class i = n.

  (** The whole graph satisfies the schema: every registered instance carries its
      identifier, which matches the pattern, and all references are registered. *)
  Definition cpp_graph_sat (scalar_ok : ty -> val -> Prop) (shape_ok : list prop -> list (str * val) -> Prop)
             (g : cgraph (cx_time X)) : Prop :=
    cfields_sat scalar_ok (cregistered g) shape_ok (g_props G) (cg_fields g) /\
    forall c, In c (g_classes G) ->
      NoDup (keys (cregistry (cg_registries g) c)) /\
      forall id a, In (id, a) (cregistry (cg_registries g) c) ->
        cmatches (c_id_pattern c) id /\
        exists i, nth_error (cg_heap g) a = Some i /\ i_class i = c_name c /\ i_id i = id /\
                  cfields_sat scalar_ok (cregistered g) shape_ok (c_props c) (i_fields i) /\
                  shape_ok (c_props c) (i_fields i).

  (** ** Which JSON values represent which C++ values *)
  Definition cpp_scalar_rep (t : ty) (v : jval) (x : val) : Prop :=
    match t with
    | TBool => exists b, v = JBool b /\ x = CBool b
    | TInt _ => exists z, whole v z /\ x = CInt z
    | TFloat _ => exists f, double v f /\ x = CFloat f
    | TStr _ | TPath _ => exists s, v = JStr s /\ x = CStr s
    | TDate f => exists s t, v = JStr s /\ time_text KDate f s t /\ x = CTime t
    | TTime f => exists s t, v = JStr s /\ time_text KTime f s t /\ x = CTime t
    | TDatetime f => exists s t, v = JStr s /\ time_text KDatetime f s t /\ x = CTime t
    | TTimeZone => exists s z, v = JStr s /\ zone_text s z /\ x = CZone z
    | TDuration => exists s d, v = JStr s /\ cpp_dur_from (cx_flag X s) s = CppOk d /\ x = CDuration d
    | _ => False
    end.

  Section Rep.
    (** [points n id a]: the identifier [id] of class [n] designates instance [a]. *)
    Variable points : str -> str -> addr -> Prop.

    Inductive crep : ty -> jval -> val -> Prop :=
    | crep_scalar t v x : scalar t = true -> cpp_scalar_rep t v x -> crep t v x
    | crep_array t mn mx l xs : Forall2 (crep t) l xs -> crep (TArray t mn mx) (JArr l) (CList xs)
    | crep_map t l xs :
        NoDup (keys xs) -> (forall k, In k (keys l) <-> In k (keys xs)) ->
        (forall k v x, In (k, v) l -> In (k, x) xs -> crep t v x) ->
        crep (TMap t) (JObj l) (CMap xs)
    | crep_ref n id a : points n id a -> crep (TClass n) (JStr id) (CRef a)
    | crep_embed n e l fields :
        find_embed G n = Some e ->
        keys fields = map p_name (e_props e) ->
        (forall p, In p (e_props e) ->
           (lookup (p_json p) l = None /\ lookup (p_name p) fields = Some CNil) \/
           (exists v x, lookup (p_json p) l = Some v /\
                        lookup (p_name p) fields = Some x /\ x <> CNil /\
                        crep (p_type p) v x)) ->
        crep (TEmbed n) (JObj l) (CStruct fields).

    Definition cfields_rep (ps : list prop) (l : list (str * jval)) (fields : list (str * val)) : Prop :=
      keys fields = map p_name ps /\
      forall p, In p ps ->
        (lookup (p_json p) l = None /\ lookup (p_name p) fields = Some CNil) \/
        (exists v x, lookup (p_json p) l = Some v /\
                     lookup (p_name p) fields = Some x /\ x <> CNil /\
                     crep (p_type p) v x).
  End Rep.

  (** The identifier [id] of class [n] is registered for instance [a]. *)
  Definition cdesignates (R : cregistries) (n id : str) (a : addr) : Prop :=
    exists c, find_class G n = Some c /\ lookup id (cregistry R c) = Some a.

  (** The JSON object [l] represents the graph [g]. *)
  Definition cpp_graph_rep (l : list (str * jval)) (g : cgraph (cx_time X)) : Prop :=
    cfields_rep (cdesignates (cg_registries g)) (g_props G) l (cg_fields g) /\
    forall c, In c (g_classes G) ->
      NoDup (keys (cregistry (cg_registries g) c)) /\
      ((lookup (cpp_cls_key c) l = None /\ cregistry (cg_registries g) c = []) \/
       exists m, lookup (cpp_cls_key c) l = Some (JObj m) /\
         (forall id, In id (keys m) <-> In id (keys (cregistry (cg_registries g) c))) /\
         forall id v a, In (id, v) m -> In (id, a) (cregistry (cg_registries g) c) ->
           exists o i, v = JObj o /\ nth_error (cg_heap g) a = Some i /\
             i_class i = c_name c /\ i_id i = id /\
             cfields_rep (cdesignates (cg_registries g)) (c_props c) o (i_fields i)).

  (** ** Schemas whose generated code compiles *)

  (** Fields of a struct are distinct. *)
  Definition cfields_distinct : Prop :=
    (forall ps, In ps (composites G) -> NoDup (map p_name ps)) /\
    NoDup (map (fun c => cfield (c_plural c)) (g_classes G)).
  Definition cclasses_distinct : Prop := NoDup (map c_name (g_classes G)).

  (** JSON keys are not shared by two properties or registries. *)
  Definition cpp_json_distinct : Prop :=
    (forall ps, In ps (composites G) -> NoDup (map p_json ps)) /\
    NoDup (map p_json (g_props G) ++ map cpp_cls_key (g_classes G)).

  (** No registry has the name of the graph: it would not be written. *)
  Definition registries_visible : Prop :=
    forall c, In c (g_classes G) -> lower (c_plural c) <> lower (g_name G).

  (** The fields are declared under the names of the properties and accessed in
      lower case. *)
  Definition names_lower : Prop :=
    forall ps p, In ps (composites G) -> In p ps -> cfield (p_name p) = p_name p.

  (** ** What is preserved by serializing and parsing *)

  (** What is written for a date or a time. *)
  Definition written_time (k : tkind) (format : str) (t : cx_time X) : str :=
    match format with
    | [] => []
    | _ => if cx_date_h X then cx_date_format X k format t else cx_strftime X format t
    end.
  (** The text fits into four times the format, and is not empty. *)
  Definition fits_format (format : str) (t : cx_time X) : Prop :=
    format = [] \/ cx_date_h X = true \/
    (0 < bytes (cx_strftime X format t) < 4 * bytes format /\
     (4 * N.of_nat (bytes format) <= cx_max_size X)%N).
  Definition time_canon (k : tkind) (format : str) (t : cx_time X) : Prop :=
    fits_format format t /\ time_text k format (written_time k format t) t.

  (** Values for which the libraries do not lose information. *)
  Definition cpp_canon (t : ty) (x : val) : Prop :=
    match t with
    | TBool => exists b, x = CBool b
    | TInt b => exists z, x = CInt z /\ int64 z /\ in_range b z
    | TFloat b => exists f, x = CFloat f /\ float_in_range b f
    | TStr p | TPath p => exists s, x = CStr s /\ cmatches p s
    | TDate f => exists t, x = CTime t /\ time_canon KDate f t
    | TTime f => exists t, x = CTime t /\ time_canon KTime f t
    | TDatetime f => exists t, x = CTime t /\ time_canon KDatetime f t
    | TTimeZone => exists z, x = CZone z /\ zone_text z z
    | TDuration => exists d, x = CDuration d /\ (- 2 ^ 63 < d < 2 ^ 63)%Z
    | _ => False
    end.

  (** Some property is set, unless there are none. *)
  Definition shown (ps : list prop) (fields : list (str * val)) : Prop :=
    ps = [] \/ exists p x, In p ps /\ lookup (p_name p) fields = Some x /\ x <> CNil.
  Definition graph_shown (g : cgraph (cx_time X)) : Prop :=
    (g_props G = [] /\ g_classes G = []) \/
    (exists p x, In p (g_props G) /\ lookup (p_name p) (cg_fields g) = Some x /\ x <> CNil) \/
    exists c, In c (g_classes G) /\ cregistry (cg_registries g) c <> [].

  (** The uninitialized flag happens to be false. *)
  Definition flag_cleared : Prop := forall s, cx_flag X s = false.

  (** ** Equal graphs: up to the addresses of the instances and the order of maps *)
  Section Equal.
    Variable same : addr -> addr -> Prop.

    Inductive cveq : val -> val -> Prop :=
    | cveq_atom x : (match x with CList _ | CMap _ | CRef _ | CStruct _ => False | _ => True end) ->
        cveq x x
    | cveq_list xs ys : Forall2 cveq xs ys -> cveq (CList xs) (CList ys)
    | cveq_map xs ys :
        NoDup (keys xs) -> NoDup (keys ys) -> (forall k, In k (keys xs) <-> In k (keys ys)) ->
        (forall k x y, In (k, x) xs -> In (k, y) ys -> cveq x y) ->
        cveq (CMap xs) (CMap ys)
    | cveq_ref a b : same a b -> cveq (CRef a) (CRef b)
    | cveq_struct xs ys :
        keys xs = keys ys ->
        (forall k x y, lookup k xs = Some x -> lookup k ys = Some y -> cveq x y) ->
        cveq (CStruct xs) (CStruct ys).

    Definition cfields_eq (xs ys : list (str * val)) : Prop :=
      keys xs = keys ys /\
      forall k x y, lookup k xs = Some x -> lookup k ys = Some y -> cveq x y.
  End Equal.

  (** A one-to-one correspondence of the registered instances under which the
      registries, the identifiers and all values agree. *)
  Definition cpp_graph_equal (g g' : cgraph (cx_time X)) : Prop :=
    exists same : addr -> addr -> Prop,
      (forall a a' b, same a b -> same a' b -> a = a') /\
      (forall a b b', same a b -> same a b' -> b = b') /\
      cfields_eq same (cg_fields g) (cg_fields g') /\
      forall c, In c (g_classes G) ->
        (forall id, In id (keys (cregistry (cg_registries g) c)) <->
                    In id (keys (cregistry (cg_registries g') c))) /\
        forall id a b, In (id, a) (cregistry (cg_registries g) c) ->
          In (id, b) (cregistry (cg_registries g') c) ->
          same a b /\
          exists i j, nth_error (cg_heap g) a = Some i /\ nth_error (cg_heap g') b = Some j /\
            i_class i = i_class j /\ i_id i = i_id j /\
            cfields_eq same (i_fields i) (i_fields j).
End Spec.

(** No text in the value makes the C++ conversion of durations throw. *)
Inductive no_throw (X : cext) : jval -> Prop :=
| nt_null : no_throw X JNull
| nt_bool b : no_throw X (JBool b)
| nt_int z : no_throw X (JInt z)
| nt_float f : no_throw X (JFloat f)
| nt_str s : cpp_dur_from (cx_flag X s) s <> CppThrow -> no_throw X (JStr s)
| nt_arr l : (forall v, In v l -> no_throw X v) -> no_throw X (JArr l)
| nt_obj l : (forall k v, In (k, v) l -> no_throw X v) -> no_throw X (JObj l).
