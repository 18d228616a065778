(** Specification of the values handled by the generated Go code (C15-C17). *)
From Verif Require Import Base M_Naming M_Errors M_Schema M_Strftime M_Duration M_Num M_GoGen S_Conform S_Common.
From Coq Require Import String List ZArith NArith Floats.SpecFloat Permutation.
Import ListNotations.

Section Spec.
  Variable X : gext.
  Variable G : graph.
  Notation val := (goval (g_time X)).

  Definition gmatches (p : option str) (s : str) : Prop :=
    forall q, p = Some q -> g_match X q s = true.

  (** ** What the Go parser has to accept as a scalar *)
  Definition go_leaf (t : ty) (v : jval) : Prop :=
    match t with
    | TBool => exists b, v = JBool b
    | TInt b => exists f z, v = JFloat f /\ float_is f z /\ int64 z /\ in_range b z
    | TFloat b => exists f, v = JFloat f /\ float_in_range b f
    | TStr p | TPath p => exists s, v = JStr s /\ gmatches p s
    | TDate f | TTime f | TDatetime f =>
        exists s t, v = JStr s /\ g_time_parse X (layout f) s = Some t
    | TTimeZone => exists s z, v = JStr s /\ g_load X s = Some z
    | TDuration => exists s d, v = JStr s /\ go_dur_from s = Some d
    | _ => False
    end.

  Definition go_cls_key (c : cls) : str := go_key (c_plural c).
  Definition go_id_ok (p id : str) : Prop := g_match X p id = true.

  Definition go_conforms : jval -> Prop := graph_conforms G go_leaf go_id_ok go_cls_key.

  (** ** Values satisfying a type *)
  Definition go_scalar (t : ty) (x : val) : Prop :=
    match t with
    | TBool => exists b, x = GBool b
    | TInt b => exists z, x = GInt z /\ int64 z /\ in_range b z
    | TFloat b => exists f, x = GFloat f /\ float_in_range b f
    | TStr p | TPath p => exists s, x = GStr s /\ gmatches p s
    | TDate f | TTime f | TDatetime f =>
        exists s t, x = GTime t /\ g_time_parse X (layout f) s = Some t
    | TTimeZone => exists s z, x = GZone z /\ g_load X s = Some z
    | TDuration => exists s d, x = GDuration d /\ go_dur_from s = Some d
    | _ => False
    end.

  Section Values.
    Variable scalar_ok : ty -> val -> Prop.
    Variable ref_ok : str -> addr -> Prop.

    Inductive gsat : ty -> val -> Prop :=
    | gsat_scalar t x : scalar t = true -> scalar_ok t x -> gsat t x
    | gsat_array t mn mx l :
        size_ok mn mx (length l) -> (forall x, In x l -> gsat t x) ->
        gsat (TArray t mn mx) (GList l)
    | gsat_map t l :
        NoDup (keys l) -> (forall k x, In (k, x) l -> gsat t x) -> gsat (TMap t) (GMap l)
    | gsat_ref n a : ref_ok n a -> gsat (TClass n) (GRef a)
    | gsat_embed n e fields :
        find_embed G n = Some e ->
        keys fields = map (fun p => field (p_name p)) (e_props e) ->
        (forall p, In p (e_props e) ->
           exists x, lookup (field (p_name p)) fields = Some x /\
                     ((x = GNil /\ p_optional p = true) \/ (x <> GNil /\ gsat (p_type p) x))) ->
        gsat (TEmbed n) (GStruct fields).

    (** The fields of an object with the properties [ps]; a nil pointer only for
        an optional property. *)
    Definition fields_sat (ps : list prop) (fields : list (str * val)) : Prop :=
      keys fields = map (fun p => field (p_name p)) ps /\
      forall p, In p ps ->
        exists x, lookup (field (p_name p)) fields = Some x /\
                  ((x = GNil /\ p_optional p = true) \/ (x <> GNil /\ gsat (p_type p) x)).
  End Values.

  (** The registry of a class; a nil map is empty. *)
  Definition registry (R : gregistries) (c : cls) : list (str * addr) :=
    match lookup (field (c_plural c)) R with Some r => r | None => [] end.

  (** Instance [a] of class [n] is registered, under its own identifier. *)
  Definition gregistered (gg : gograph (g_time X)) (n : str) (a : addr) : Prop :=
    exists c i,
      find_class G n = Some c /\ nth_error (gg_heap gg) a = Some i /\
      lookup (o_id i) (registry (gg_registries gg) c) = Some a /\ o_class i = n.

  (** The whole graph satisfies the schema: every registered instance carries its
      identifier, which matches the pattern, and all references are registered. *)
  Definition go_graph_sat (scalar_ok : ty -> val -> Prop) (gg : gograph (g_time X)) : Prop :=
    fields_sat scalar_ok (gregistered gg) (g_props G) (gg_fields gg) /\
    forall c, In c (g_classes G) ->
      NoDup (keys (registry (gg_registries gg) c)) /\
      forall id a, In (id, a) (registry (gg_registries gg) c) ->
        gmatches (c_id_pattern c) id /\
        exists i, nth_error (gg_heap gg) a = Some i /\ o_class i = c_name c /\ o_id i = id /\
                  fields_sat scalar_ok (gregistered gg) (c_props c) (o_fields i).

  (** ** Which JSON values represent which Go values *)
  Definition go_scalar_rep (t : ty) (v : jval) (x : val) : Prop :=
    match t with
    | TBool => exists b, v = JBool b /\ x = GBool b
    | TInt _ => exists f z, v = JFloat f /\ float_is f z /\ x = GInt z
    | TFloat _ => exists f, v = JFloat f /\ x = GFloat f
    | TStr _ | TPath _ => exists s, v = JStr s /\ x = GStr s
    | TDate f | TTime f | TDatetime f =>
        exists s t, v = JStr s /\ g_time_parse X (layout f) s = Some t /\ x = GTime t
    | TTimeZone => exists s z, v = JStr s /\ g_load X s = Some z /\ x = GZone z
    | TDuration => exists s d, v = JStr s /\ go_dur_from s = Some d /\ x = GDuration d
    | _ => False
    end.

  Section Rep.
    (** [points n id a]: the identifier [id] of class [n] designates instance [a]. *)
    Variable points : str -> str -> addr -> Prop.

    Inductive grep : ty -> jval -> val -> Prop :=
    | grep_scalar t v x : scalar t = true -> go_scalar_rep t v x -> grep t v x
    | grep_array t mn mx l xs : Forall2 (grep t) l xs -> grep (TArray t mn mx) (JArr l) (GList xs)
    | grep_map t l xs :
        NoDup (keys xs) -> (forall k, In k (keys l) <-> In k (keys xs)) ->
        (forall k v x, In (k, v) l -> In (k, x) xs -> grep t v x) ->
        grep (TMap t) (JObj l) (GMap xs)
    | grep_ref n id a : points n id a -> grep (TClass n) (JStr id) (GRef a)
    | grep_embed n e l fields :
        find_embed G n = Some e ->
        keys fields = map (fun p => field (p_name p)) (e_props e) ->
        (forall p, In p (e_props e) ->
           (lookup (p_json p) l = None /\ lookup (field (p_name p)) fields = Some GNil) \/
           (exists v x, lookup (p_json p) l = Some v /\
                        lookup (field (p_name p)) fields = Some x /\ x <> GNil /\
                        grep (p_type p) v x)) ->
        grep (TEmbed n) (JObj l) (GStruct fields).

    Definition gfields_rep (ps : list prop) (l : list (str * jval)) (fields : list (str * val)) : Prop :=
      keys fields = map (fun p => field (p_name p)) ps /\
      forall p, In p ps ->
        (lookup (p_json p) l = None /\ lookup (field (p_name p)) fields = Some GNil) \/
        (exists v x, lookup (p_json p) l = Some v /\
                     lookup (field (p_name p)) fields = Some x /\ x <> GNil /\
                     grep (p_type p) v x).
  End Rep.

  (** The identifier [id] of class [n] is registered for instance [a]. *)
  Definition gdesignates (R : gregistries) (n id : str) (a : addr) : Prop :=
    exists c, find_class G n = Some c /\ lookup id (registry R c) = Some a.

  (** The JSON object [l] represents the graph [gg]. *)
  Definition go_graph_rep (l : list (str * jval)) (gg : gograph (g_time X)) : Prop :=
    gfields_rep (gdesignates (gg_registries gg)) (g_props G) l (gg_fields gg) /\
    forall c, In c (g_classes G) ->
      NoDup (keys (registry (gg_registries gg) c)) /\
      ((lookup (go_cls_key c) l = None /\ registry (gg_registries gg) c = []) \/
       exists m, lookup (go_cls_key c) l = Some (JObj m) /\
         (forall id, In id (keys m) <-> In id (keys (registry (gg_registries gg) c))) /\
         forall id v a, In (id, v) m -> In (id, a) (registry (gg_registries gg) c) ->
           exists o i, v = JObj o /\ nth_error (gg_heap gg) a = Some i /\
             o_class i = c_name c /\ o_id i = id /\
             gfields_rep (gdesignates (gg_registries gg)) (c_props c) o (o_fields i)).

  (** ** Schemas whose generated code compiles *)

  (** Fields of a struct are distinct. *)
  Definition fields_distinct : Prop :=
    (forall ps, In ps (composites G) -> NoDup (map (fun p => field (p_name p)) ps)) /\
    NoDup (map (fun c => field (c_plural c)) (g_classes G)).
  Definition classes_distinct : Prop := NoDup (map c_name (g_classes G)).

  (** JSON keys are not shared by two properties or registries. *)
  Definition go_json_distinct : Prop :=
    (forall ps, In ps (composites G) -> NoDup (map p_json ps)) /\
    NoDup (map p_json (g_props G) ++ map go_cls_key (g_classes G)).

  (** ** JSON text in between *)

  (** [json.Marshal] followed by [json.Unmarshal] (encoding/json): integers become
      floats; NaN and infinities can not be written; everything else is preserved
      (assuming valid UTF-8 in strings). *)
  Fixpoint via_json (v : jval) : option jval :=
    match v with
    | JInt z => option_map JFloat (float_of_Z z)
    | JFloat f => if is_finite f then Some v else None
    | JArr l => option_map JArr (all_some (map via_json l))
    | JObj l => option_map JObj (all_some (map (fun kv => option_map (pair (fst kv)) (via_json (snd kv))) l))
    | _ => Some v
    end.

  (** Values which survive being written as text. *)
  Definition go_canon (t : ty) (x : val) : Prop :=
    match t with
    | TBool => exists b, x = GBool b
    | TInt b => exists z, x = GInt z /\ int64 z /\ representable z /\ in_range b z
    | TFloat b => exists f, x = GFloat f /\ is_finite f = true /\ float_in_range b f
    | TStr p | TPath p => exists s, x = GStr s /\ gmatches p s
    | TDate f | TTime f | TDatetime f => exists t, x = GTime t /\
        g_time_parse X (layout f)
          (match layout f with [] => [] | _ => g_time_format X (layout f) t end) = Some t
    | TTimeZone => exists z, x = GZone z /\ g_load X z = Some z
    | TDuration => exists d, x = GDuration d /\ (- 2 ^ 63 < d < 2 ^ 63)%Z
    | _ => False
    end.

  (** ** Equal graphs: up to the addresses of the instances and the order of maps *)
  Section Equal.
    Variable same : addr -> addr -> Prop.

    Inductive gveq : val -> val -> Prop :=
    | gveq_atom x : (match x with GList _ | GMap _ | GRef _ | GStruct _ => False | _ => True end) ->
        gveq x x
    | gveq_list xs ys : Forall2 gveq xs ys -> gveq (GList xs) (GList ys)
    | gveq_map xs ys :
        NoDup (keys xs) -> NoDup (keys ys) -> (forall k, In k (keys xs) <-> In k (keys ys)) ->
        (forall k x y, In (k, x) xs -> In (k, y) ys -> gveq x y) ->
        gveq (GMap xs) (GMap ys)
    | gveq_ref a b : same a b -> gveq (GRef a) (GRef b)
    | gveq_struct xs ys :
        keys xs = keys ys ->
        (forall k x y, lookup k xs = Some x -> lookup k ys = Some y -> gveq x y) ->
        gveq (GStruct xs) (GStruct ys).

    Definition gfields_eq (xs ys : list (str * val)) : Prop :=
      keys xs = keys ys /\
      forall k x y, lookup k xs = Some x -> lookup k ys = Some y -> gveq x y.
  End Equal.

  (** A one-to-one correspondence of the registered instances under which the
      registries, the identifiers and all values agree. *)
  Definition go_graph_equal (gg gg' : gograph (g_time X)) : Prop :=
    exists same : addr -> addr -> Prop,
      (forall a a' b, same a b -> same a' b -> a = a') /\
      (forall a b b', same a b -> same a b' -> b = b') /\
      gfields_eq same (gg_fields gg) (gg_fields gg') /\
      forall c, In c (g_classes G) ->
        (forall id, In id (keys (registry (gg_registries gg) c)) <->
                    In id (keys (registry (gg_registries gg') c))) /\
        forall id a b, In (id, a) (registry (gg_registries gg) c) ->
          In (id, b) (registry (gg_registries gg') c) ->
          same a b /\
          exists i j, nth_error (gg_heap gg) a = Some i /\ nth_error (gg_heap gg') b = Some j /\
            o_class i = o_class j /\ o_id i = o_id j /\
            gfields_eq same (o_fields i) (o_fields j).
End Spec.
