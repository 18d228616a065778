(** Specification of the generated Python serialization (C09, C10) and of the
    inputs on which the generated Python parser does not raise (C08). *)
From Verif Require Import Base M_Naming M_Errors M_Dec M_Schema M_PyGen S_Conform S_PyGen.
From Coq Require Import String List ZArith NArith.
Import ListNotations.

Section Spec.
  Variable X : ext.
  Variable S : py_settings.
  Variable G : graph.

  (** ** Python objects of the declared types *)

  Definition py_kind (t : ty) (x : pyval) : Prop :=
    match t with
    | TBool => exists b, x = PVBool b
    | TInt _ => (exists z, x = PVInt z) \/ (exists b, x = PVBool b)
    | TFloat _ => exists f, x = PVFloat f
    | TStr _ => exists s, x = PVStr s
    | TPath _ => exists s, x = if pathlib S then PVPath s else PVStr s
    | TDate _ => exists d, x = PVDate d
    | TTime _ => exists d, x = PVTime d
    | TDatetime _ => exists d, x = PVDatetime d
    | TTimeZone => exists s, x = if pytz S then PVZone s else PVStr s
    | TDuration => exists us, x = PVDuration us
    | _ => False
    end.

  (** References point to existing instances (of any identifier). *)
  Definition allocated (pg : pygraph) (n : str) (a : addr) : Prop :=
    exists i, nth_error (pg_heap pg) a = Some i.

  (** A graph object whose attributes and registries have the declared types; the
      identifiers may be inconsistent. *)
  Definition graph_typed (pg : pygraph) : Prop :=
    attrs_sat G py_kind (allocated pg) (g_props G) (pg_attrs pg) /\
    forall c, In c (g_classes G) ->
      exists reg, lookup (attr (c_plural c)) (pg_registries pg) = Some reg /\ NoDup (keys reg) /\
        forall id a, In (id, a) reg ->
          exists i, nth_error (pg_heap pg) a = Some i /\
                    attrs_sat G py_kind (allocated pg) (c_props c) (i_attrs i).

  (** An instance is registered under an identifier different from its own. *)
  Definition inconsistent (pg : pygraph) : Prop :=
    exists c reg id a i,
      In c (g_classes G) /\ lookup (attr (c_plural c)) (pg_registries pg) = Some reg /\
      In (id, a) reg /\ nth_error (pg_heap pg) a = Some i /\ i_id i <> id.

  (** ** What is written *)

  Definition scalar_wrote (t : ty) (x : pyval) (v : jval) : Prop :=
    match t with
    | TBool | TInt _ | TFloat _ | TStr _ =>
        match x with
        | PVBool b => v = JBool b
        | PVInt z => v = JInt z
        | PVFloat f => v = JFloat f
        | PVStr s => v = JStr s
        | _ => False
        end
    | TPath _ | TTimeZone =>
        match x with PVStr s | PVPath s | PVZone s => v = JStr s | _ => False end
    | TDate f => exists d, x = PVDate d /\ v = JStr (x_strftime X f d)
    | TTime f => exists d, x = PVTime d /\ v = JStr (x_strftime X f d)
    | TDatetime f => exists d, x = PVDatetime d /\ v = JStr (x_strftime X f d)
    | TDuration => exists us, x = PVDuration us /\ v = JStr (x_dur_to X us)
    | _ => False
    end.

  Section Wrote.
    Variable heap : list instance.

    (** A set property is written under its JSON key, an absent optional property is
        not, and nothing else is written. *)
    Inductive wrote : ty -> pyval -> jval -> Prop :=
    | w_scalar t x v : scalar t = true -> scalar_wrote t x v -> wrote t x v
    | w_array t mn mx xs l : Forall2 (wrote t) xs l -> wrote (TArray t mn mx) (PVList xs) (JArr l)
    | w_map t xs l :
        Forall2 (fun kx kv => fst kx = fst kv /\ wrote t (snd kx) (snd kv)) xs l ->
        wrote (TMap t) (PVDict xs) (JObj l)
    | w_ref n a i : nth_error heap a = Some i -> wrote (TClass n) (PVRef a) (JStr (i_id i))
    | w_embed n e attrs l :
        find_embed G n = Some e -> NoDup (keys l) ->
        (forall k, In k (keys l) -> exists p, In p (e_props e) /\ p_json p = k) ->
        (forall p, In p (e_props e) ->
           exists x, lookup (attr (p_name p)) attrs = Some x /\
             ((x = PVNone /\ ~ In (p_json p) (keys l)) \/
              (x <> PVNone /\ exists v, lookup (p_json p) l = Some v /\ wrote (p_type p) x v))) ->
        wrote (TEmbed n) (PVEmbed n attrs) (JObj l).

    Definition fields_wrote (ps : list prop) (attrs : list (str * pyval)) (l : list (str * jval)) : Prop :=
      forall p, In p ps ->
        exists x, lookup (attr (p_name p)) attrs = Some x /\
          ((x = PVNone /\ ~ In (p_json p) (keys l)) \/
           (x <> PVNone /\ exists v, lookup (p_json p) l = Some v /\ wrote (p_type p) x v)).

    Definition instance_wrote (c : cls) (i : instance) (v : jval) : Prop :=
      exists l, v = JObj l /\ NoDup (keys l) /\
        (forall k, In k (keys l) -> exists p, In p (c_props c) /\ p_json p = k) /\
        fields_wrote (c_props c) (i_attrs i) l.
  End Wrote.

  (** Exactly the set properties and the non-empty registries are written. *)
  Definition graph_wrote (pg : pygraph) (l : list (str * jval)) : Prop :=
    NoDup (keys l) /\
    (forall k, In k (keys l) ->
       (exists p, In p (g_props G) /\ p_json p = k) \/
       (exists c, In c (g_classes G) /\ py_key c = k)) /\
    fields_wrote (pg_heap pg) (g_props G) (pg_attrs pg) l /\
    forall c, In c (g_classes G) ->
      exists reg, lookup (attr (c_plural c)) (pg_registries pg) = Some reg /\
        ((reg = [] /\ ~ In (py_key c) (keys l)) \/
         (reg <> [] /\ exists m, lookup (py_key c) l = Some (JObj m) /\
            Forall2 (fun ka kv => fst ka = fst kv /\
              exists i, nth_error (pg_heap pg) (snd ka) = Some i /\ i_id i = fst ka /\
                        instance_wrote (pg_heap pg) c i (snd kv)) reg m)).

  (** ** Schemas whose keys and attributes are not confused *)

  (** The serializer of a class or an embeddable structure reads the attribute
      [instance.name]; it is the one which was set only if the name is written in
      lower case. *)
  Definition lower_names : Prop :=
    (forall c p, In c (g_classes G) -> In p (c_props c) -> attr (p_name p) = p_name p) /\
    (forall e p, In e (g_embeds G) -> In p (e_props e) -> attr (p_name p) = p_name p).

  Definition json_distinct : Prop :=
    (forall c, In c (g_classes G) -> NoDup (map p_json (c_props c))) /\
    (forall e, In e (g_embeds G) -> NoDup (map p_json (e_props e))) /\
    NoDup (map p_json (g_props G) ++ map py_key (g_classes G)).

  (** ** Values which survive being written as text *)

  Definition py_canon (t : ty) (x : pyval) : Prop :=
    match t with
    | TBool => exists b, x = PVBool b
    | TInt b => exists z, in_range b z /\
        (x = PVInt z \/ (x = PVBool true /\ z = 1%Z) \/ (x = PVBool false /\ z = 0%Z))
    | TFloat b => exists f, x = PVFloat f /\ float_in_range b f
    | TStr p => exists s, x = PVStr s /\ matches X p s
    | TPath p => exists s, matches X p s /\
        if pathlib S then x = PVPath s /\ x_path X s = s else x = PVStr s
    | TDate f => exists d d', x = PVDate d /\ x_strptime X f (x_strftime X f d) = Some d' /\
                              date_of d' = d
    | TTime f => exists d d', x = PVTime d /\ x_strptime X f (x_strftime X f d) = Some d' /\
                              time_of d' = d
    | TDatetime f => exists d, x = PVDatetime d /\ x_strptime X f (x_strftime X f d) = Some d
    | TTimeZone => exists s, if pytz S then x = PVZone s /\ x_tz X s = Some s else x = PVStr s
    | TDuration => exists us, x = PVDuration us /\ x_dur_from X (x_dur_to X us) = Some us
    | _ => False
    end.

  (** ** Equal graphs: the same up to the addresses of the instances *)

  Section Equal.
    Variable same : addr -> addr -> Prop.

    Inductive veq : pyval -> pyval -> Prop :=
    | veq_atom x : (match x with PVList _ | PVDict _ | PVRef _ | PVEmbed _ _ => False | _ => True end) ->
        veq x x
    | veq_list xs ys : Forall2 veq xs ys -> veq (PVList xs) (PVList ys)
    | veq_dict xs ys :
        Forall2 (fun kx ky => fst kx = fst ky /\ veq (snd kx) (snd ky)) xs ys ->
        veq (PVDict xs) (PVDict ys)
    | veq_ref a b : same a b -> veq (PVRef a) (PVRef b)
    | veq_embed n xs ys :
        Forall2 (fun kx ky => fst kx = fst ky /\ veq (snd kx) (snd ky)) xs ys ->
        veq (PVEmbed n xs) (PVEmbed n ys).

    Definition attrs_eq (xs ys : list (str * pyval)) : Prop :=
      Forall2 (fun kx ky => fst kx = fst ky /\ veq (snd kx) (snd ky)) xs ys.
  End Equal.

  (** A one-to-one correspondence of the registered instances under which the
      registries (with their order), the identifiers and all values agree. *)
  Definition graph_equal (pg pg' : pygraph) : Prop :=
    exists same : addr -> addr -> Prop,
      (forall a a' b, same a b -> same a' b -> a = a') /\
      (forall a b b', same a b -> same a b' -> b = b') /\
      attrs_eq same (pg_attrs pg) (pg_attrs pg') /\
      forall c, In c (g_classes G) ->
        exists reg reg',
          lookup (attr (c_plural c)) (pg_registries pg) = Some reg /\
          lookup (attr (c_plural c)) (pg_registries pg') = Some reg' /\
          Forall2 (fun ka kb => fst ka = fst kb /\ same (snd ka) (snd kb) /\
            exists i j, nth_error (pg_heap pg) (snd ka) = Some i /\
                        nth_error (pg_heap pg') (snd kb) = Some j /\
                        i_class i = i_class j /\ i_id i = i_id j /\
                        attrs_eq same (i_attrs i) (i_attrs j)) reg reg'.

  (** ** Inputs on which the parser does not raise *)

  (** The error messages about the patterns and formats can be formatted. *)
  Fixpoint messages_ok (t : ty) : Prop :=
    match t with
    | TStr (Some p) | TPath (Some p) => format_match p = None
    | TDate f | TTime f | TDatetime f => format_strptime f = None
    | TArray t' _ _ | TMap t' => messages_ok t'
    | _ => True
    end.

  Definition schema_messages_ok : Prop :=
    forall ps p, In ps (composites G) -> In p ps -> messages_ok (p_type p).

  (** Every integer in the value can be converted to a float. *)
  Definition floatable : jval -> Prop := all_ints (fun z => float_of_Z z <> None).

  (** No registry of the graph is given as null. *)
  Definition no_null_registry (v : jval) : Prop :=
    forall l c, v = JObj l -> In c (g_classes G) -> lookup (py_key c) l <> Some JNull.
End Spec.
