(** Specification of the values handled by the generated Python code. *)
From Verif Require Import Base M_Naming M_Errors M_Schema M_PyGen S_Conform.
From Coq Require Import String List ZArith.
Import ListNotations.

Section Spec.
  Variable X : ext.
  Variable S : py_settings.
  Variable G : graph.

  (** ** What the Python parser has to accept as a scalar *)

  (** Python booleans are integers. *)
  Definition int_value (v : jval) (z : Z) : Prop :=
    v = JInt z \/ (v = JBool true /\ z = 1%Z) \/ (v = JBool false /\ z = 0%Z).

  Definition matches (p : option str) (s : str) : Prop :=
    forall q, p = Some q -> x_re_match X q s = true.

  Definition py_leaf (t : ty) (v : jval) : Prop :=
    match t with
    | TBool => exists b, v = JBool b
    | TInt b => exists z, int_value v z /\ in_range b z
    | TFloat b => (exists f, v = JFloat f /\ float_in_range b f) \/
                  (exists z, int_value v z /\ in_range b z /\ float_of_Z z <> None)
    | TStr p | TPath p => exists s, v = JStr s /\ matches p s
    | TDate f | TTime f | TDatetime f => exists s, v = JStr s /\ x_strptime X f s <> None
    | TTimeZone => exists s, v = JStr s /\ (pytz S = true -> x_tz X s <> None)
    | TDuration => exists s, v = JStr s /\ x_dur_from X s <> None
    | _ => False
    end.

  Definition py_key (c : cls) : str := registry_key (c_plural c).
  Definition py_id_ok (p id : str) : Prop := x_re_match X p id = true.

  (** ** Values satisfying a type *)

  Section Values.
    Variable scalar_ok : ty -> pyval -> Prop.
    Variable ref_ok : str -> addr -> Prop.

    Inductive sat : ty -> pyval -> Prop :=
    | sat_scalar t x : scalar t = true -> scalar_ok t x -> x <> PVNone -> sat t x
    | sat_array t mn mx l :
        size_ok mn mx (length l) -> (forall x, In x l -> sat t x) ->
        sat (TArray t mn mx) (PVList l)
    | sat_map t l :
        NoDup (keys l) -> (forall k x, In (k, x) l -> sat t x) -> sat (TMap t) (PVDict l)
    | sat_ref n a : ref_ok n a -> sat (TClass n) (PVRef a)
    | sat_embed n e attrs :
        find_embed G n = Some e ->
        keys attrs = map (fun p => attr (p_name p)) (e_props e) ->
        (forall p, In p (e_props e) ->
           exists x, lookup (attr (p_name p)) attrs = Some x /\
                     ((x = PVNone /\ p_optional p = true) \/ sat (p_type p) x)) ->
        sat (TEmbed n) (PVEmbed n attrs).

    (** The attributes of an object with the properties [ps]: exactly one per
        property, set unless the property is optional. *)
    Definition attrs_sat (ps : list prop) (attrs : list (str * pyval)) : Prop :=
      keys attrs = map (fun p => attr (p_name p)) ps /\
      forall p, In p ps ->
        exists x, lookup (attr (p_name p)) attrs = Some x /\
                  ((x = PVNone /\ p_optional p = true) \/ sat (p_type p) x).
  End Values.

  (** Instance [a] of class [n] is registered, under its own identifier. *)
  Definition registered (pg : pygraph) (n : str) (a : addr) : Prop :=
    exists c reg i,
      find_class G n = Some c /\
      lookup (attr (c_plural c)) (pg_registries pg) = Some reg /\
      nth_error (pg_heap pg) a = Some i /\
      lookup (i_id i) reg = Some a /\ i_class i = n.

  (** Every registry entry designates an instance of the class carrying the ID. *)
  Definition registries_ok (pg : pygraph) : Prop :=
    forall c, In c (g_classes G) ->
      exists reg, lookup (attr (c_plural c)) (pg_registries pg) = Some reg /\
        NoDup (keys reg) /\
        forall id a, In (id, a) reg ->
          exists i, nth_error (pg_heap pg) a = Some i /\ i_class i = c_name c /\ i_id i = id.

  (** The whole graph satisfies the schema. *)
  Definition graph_sat (scalar_ok : ty -> pyval -> Prop) (pg : pygraph) : Prop :=
    attrs_sat scalar_ok (registered pg) (g_props G) (pg_attrs pg) /\
    registries_ok pg /\
    (forall c reg id a i, In c (g_classes G) ->
       lookup (attr (c_plural c)) (pg_registries pg) = Some reg -> In (id, a) reg ->
       nth_error (pg_heap pg) a = Some i ->
       matches (c_id_pattern c) id /\
       attrs_sat scalar_ok (registered pg) (c_props c) (i_attrs i)).

  (** What a parsed scalar satisfies.  Python booleans count as integers.  A float
      read from an integer (satisfying [I], or a boolean) is the rounded integer,
      and the integer is within the bounds. *)
  Definition py_scalar (I : Z -> Prop) (t : ty) (x : pyval) : Prop :=
    match t with
    | TBool => exists b, x = PVBool b
    | TInt b => exists z, in_range b z /\
        (x = PVInt z \/ (x = PVBool true /\ z = 1%Z) \/ (x = PVBool false /\ z = 0%Z))
    | TFloat b => exists f, x = PVFloat f /\
        (float_in_range b f \/
         exists z, (I z \/ z = 0%Z \/ z = 1%Z) /\ in_range b z /\ float_of_Z z = Some f)
    | TStr p => exists s, x = PVStr s /\ matches p s
    | TPath p => exists s, matches p s /\
        x = if pathlib S then PVPath (x_path X s) else PVStr s
    | TDate f => exists s d, x_strptime X f s = Some d /\ x = PVDate (date_of d)
    | TTime f => exists s d, x_strptime X f s = Some d /\ x = PVTime (time_of d)
    | TDatetime f => exists s d, x_strptime X f s = Some d /\ x = PVDatetime d
    | TTimeZone => exists s, if pytz S then exists z, x_tz X s = Some z /\ x = PVZone z
                             else x = PVStr s
    | TDuration => exists s us, x_dur_from X s = Some us /\ x = PVDuration us
    | _ => False
    end.

  (** The same, with every float within the bounds. *)
  Definition py_scalar_strict (t : ty) (x : pyval) : Prop :=
    match t with
    | TFloat b => exists f, x = PVFloat f /\ float_in_range b f
    | _ => py_scalar (fun _ => True) t x
    end.

  (** ** Which JSON values represent which Python values *)

  Definition scalar_rep (t : ty) (v : jval) (x : pyval) : Prop :=
    match t with
    | TBool => exists b, v = JBool b /\ x = PVBool b
    | TInt _ => (exists z, v = JInt z /\ x = PVInt z) \/ (exists b, v = JBool b /\ x = PVBool b)
    | TFloat _ => (exists f, v = JFloat f /\ x = PVFloat f) \/
                  (exists z f, int_value v z /\ float_of_Z z = Some f /\ x = PVFloat f)
    | TStr _ => exists s, v = JStr s /\ x = PVStr s
    | TPath _ => exists s, v = JStr s /\ x = if pathlib S then PVPath (x_path X s) else PVStr s
    | TDate f => exists s d, v = JStr s /\ x_strptime X f s = Some d /\ x = PVDate (date_of d)
    | TTime f => exists s d, v = JStr s /\ x_strptime X f s = Some d /\ x = PVTime (time_of d)
    | TDatetime f => exists s d, v = JStr s /\ x_strptime X f s = Some d /\ x = PVDatetime d
    | TTimeZone => exists s, v = JStr s /\
        if pytz S then exists z, x_tz X s = Some z /\ x = PVZone z else x = PVStr s
    | TDuration => exists s us, v = JStr s /\ x_dur_from X s = Some us /\ x = PVDuration us
    | _ => False
    end.

  Section Rep.
    (** [points n id a]: the identifier [id] of class [n] designates instance [a]. *)
    Variable points : str -> str -> addr -> Prop.

    Inductive rep : ty -> jval -> pyval -> Prop :=
    | rep_scalar t v x : scalar t = true -> scalar_rep t v x -> rep t v x
    | rep_array t mn mx l xs : Forall2 (rep t) l xs -> rep (TArray t mn mx) (JArr l) (PVList xs)
    | rep_map t l xs :
        Forall2 (fun kv kx => fst kv = fst kx /\ rep t (snd kv) (snd kx)) l xs ->
        rep (TMap t) (JObj l) (PVDict xs)
    | rep_ref n id a : points n id a -> rep (TClass n) (JStr id) (PVRef a)
    | rep_embed n e l attrs :
        find_embed G n = Some e ->
        Forall2 (fun p kx => fst kx = attr (p_name p) /\
                   ((absent (p_json p) l /\ snd kx = PVNone) \/
                    (exists v, lookup (p_json p) l = Some v /\ v <> JNull /\
                               rep (p_type p) v (snd kx)))) (e_props e) attrs ->
        rep (TEmbed n) (JObj l) (PVEmbed n attrs).

    Definition fields_rep (ps : list prop) (l : list (str * jval)) (attrs : list (str * pyval)) : Prop :=
      Forall2 (fun p kx => fst kx = attr (p_name p) /\
                 ((absent (p_json p) l /\ snd kx = PVNone) \/
                  (exists v, lookup (p_json p) l = Some v /\ v <> JNull /\
                             rep (p_type p) v (snd kx)))) ps attrs.
  End Rep.

  (** The identifier [id] of class [n] is registered for instance [a]. *)
  Definition designates (R : registries) (n id : str) (a : addr) : Prop :=
    exists c reg, find_class G n = Some c /\ lookup (attr (c_plural c)) R = Some reg /\
                  lookup id reg = Some a.

  (** The JSON object [l] represents the graph [pg]: the same identifiers are
      registered in the same order, and the fields correspond. *)
  Definition graph_rep (l : list (str * jval)) (pg : pygraph) : Prop :=
    fields_rep (designates (pg_registries pg)) (g_props G) l (pg_attrs pg) /\
    forall c, In c (g_classes G) ->
      exists reg, lookup (attr (c_plural c)) (pg_registries pg) = Some reg /\
        ((lookup (py_key c) l = None /\ reg = []) \/
         exists m, lookup (py_key c) l = Some (JObj m) /\
           Forall2 (fun kv ka => fst kv = fst ka /\
             exists o i, snd kv = JObj o /\ nth_error (pg_heap pg) (snd ka) = Some i /\
               i_class i = c_name c /\ i_id i = fst kv /\
               fields_rep (designates (pg_registries pg)) (c_props c) o (i_attrs i)) m reg).

  (** ** References inside a value, at any depth *)
  Inductive mentions : ty -> pyval -> str -> addr -> Prop :=
  | m_ref n a : mentions (TClass n) (PVRef a) n a
  | m_array t mn mx l x n a :
      In x l -> mentions t x n a -> mentions (TArray t mn mx) (PVList l) n a
  | m_map t l k x n a :
      In (k, x) l -> mentions t x n a -> mentions (TMap t) (PVDict l) n a
  | m_embed e attrs m p x n a :
      find_embed G m = Some e -> In p (e_props e) ->
      lookup (attr (p_name p)) attrs = Some x -> mentions (p_type p) x n a ->
      mentions (TEmbed m) (PVEmbed m attrs) n a.

  (** ** Schemas whose names are not confused in Python *)
  Definition attrs_distinct : Prop :=
    forall ps, In ps (composites G) -> NoDup (map (fun p => attr (p_name p)) ps).
  Definition registries_distinct : Prop :=
    NoDup (map c_name (g_classes G)) /\
    NoDup (map (fun c => attr (c_plural c)) (g_classes G)) /\
    NoDup (map py_key (g_classes G)).
End Spec.

(** ** Inputs which differ only in members unknown to the schema *)
Section Agree.
  Variable G : graph.

  Inductive agree : ty -> jval -> jval -> Prop :=
  | agree_same t v : agree t v v
  | agree_array t mn mx l l' :
      Forall2 (agree t) l l' -> agree (TArray t mn mx) (JArr l) (JArr l')
  | agree_map t l l' :
      Forall2 (fun kv kv' => fst kv = fst kv' /\ agree t (snd kv) (snd kv')) l l' ->
      agree (TMap t) (JObj l) (JObj l')
  | agree_embed n e l l' :
      find_embed G n = Some e ->
      (forall p, In p (e_props e) ->
         (lookup (p_json p) l = None /\ lookup (p_json p) l' = None) \/
         (exists v v', lookup (p_json p) l = Some v /\ lookup (p_json p) l' = Some v' /\
                       agree (p_type p) v v')) ->
      agree (TEmbed n) (JObj l) (JObj l').

  (** The members of the properties [ps] agree; all other members are free. *)
  Definition fields_agree (ps : list prop) (l l' : list (str * jval)) : Prop :=
    forall p, In p ps ->
      (lookup (p_json p) l = None /\ lookup (p_json p) l' = None) \/
      (exists v v', lookup (p_json p) l = Some v /\ lookup (p_json p) l' = Some v' /\
                    agree (p_type p) v v').

  Definition instance_agree (c : cls) (v v' : jval) : Prop :=
    v = v' \/ exists l l', v = JObj l /\ v' = JObj l' /\ fields_agree (c_props c) l l'.

  Definition graph_agree (l l' : list (str * jval)) : Prop :=
    (forall c, In c (g_classes G) ->
       lookup (py_key c) l = lookup (py_key c) l' \/
       exists m m', lookup (py_key c) l = Some (JObj m) /\ lookup (py_key c) l' = Some (JObj m') /\
         Forall2 (fun kv kv' => fst kv = fst kv' /\ instance_agree c (snd kv) (snd kv')) m m') /\
    fields_agree (g_props G) l l'.
End Agree.
