(** Denotation of the Python code generated by
    mapry/py/generate/fromjsonable.py and mapry/py/generate/tojsonable.py.

    One function per template: it takes what the template is instantiated with
    and does what the instantiated code does.  Exceptions are values ([Raise]).
    Simplifications: messages are kept as constructors instead of texts; the
    distinction between [dict] and [collections.OrderedDict] is dropped; the
    Python stack depth is unbounded; the function of a structure is called, which is
    the one with its name unless two names differ only in case (C58). *)
From Verif Require Import Base M_Naming M_Errors M_Dec M_Schema.
From Coq Require Import String List Arith NArith ZArith Bool Floats.SpecFloat.
Import ListNotations.

(** ** External functions *)

(** A [datetime.datetime] (also used for dates and times, see [date_of] and
    [time_of]); the offset is the one of the time zone, in microseconds. *)
Record dt := Dt {
  dt_year : Z; dt_month : Z; dt_day : Z;
  dt_hour : Z; dt_minute : Z; dt_second : Z; dt_micro : Z; dt_offset : option Z }.

(** [datetime.date()]; [date.strftime] formats the time fields as zero. *)
Definition date_of (d : dt) : dt := Dt (dt_year d) (dt_month d) (dt_day d) 0 0 0 0 None.
(** [datetime.time()]; [time.strftime] uses the date 1900-01-01. *)
Definition time_of (d : dt) : dt :=
  Dt 1900 1 1 (dt_hour d) (dt_minute d) (dt_second d) (dt_micro d) None.

Record ext := Ext {
  x_re_match : str -> str -> bool;        (** [re.match(pattern, s)] is truthy *)
  x_strptime : str -> str -> option dt;   (** [datetime.strptime(s, fmt)], [None]: ValueError *)
  x_strftime : str -> dt -> str;          (** [d.strftime(fmt)] *)
  x_path : str -> str;                    (** [str(pathlib.Path(s))] *)
  x_tz : str -> option str;               (** [str(pytz.timezone(s))], [None]: UnknownTimeZoneError *)
  x_repr : str -> str;                    (** [repr(s)] *)
  x_dur_from : str -> option Z;           (** [_duration_from_string], microseconds; [None]: ValueError or OverflowError *)
  x_dur_to : Z -> str                     (** [_duration_to_string] *)
}.

(** The settings [path_as] and [timezone_as] (mapry/schemas.py:134-148 admits
    only these two values each). *)
Record py_settings := PySettings { pathlib : bool; pytz : bool }.

(** ** Values *)

Definition addr := nat.

(** Python values held by the attributes.  A class instance is a reference to
    the heap; embedded structures are owned by one attribute and kept inline. *)
Inductive pyval :=
| PVNone
| PVBool (b : bool)
| PVInt (z : Z)
| PVFloat (f : spec_float)
| PVStr (s : str)
| PVPath (s : str)
| PVDate (d : dt)
| PVTime (d : dt)
| PVDatetime (d : dt)
| PVZone (s : str)
| PVDuration (us : Z)
| PVList (l : list pyval)
| PVDict (l : list (str * pyval))
| PVRef (a : addr)
| PVEmbed (name : str) (attrs : list (str * pyval)).

Record instance := Instance { i_class : str; i_id : str; i_attrs : list (str * pyval) }.

(** A graph object: attributes, registries (by attribute name) and the heap of
    class instances. *)
Record pygraph := PyGraph {
  pg_attrs : list (str * pyval);
  pg_registries : list (str * list (str * addr));
  pg_heap : list instance }.

(** ** Errors *)

(** [type(value)] of a value loaded from JSON. *)
Inductive jtype := JTNone | JTBool | JTInt | JTFloat | JTStr | JTList | JTDict.
Definition type_of (v : jval) : jtype :=
  match v with
  | JNull => JTNone | JBool _ => JTBool | JInt _ => JTInt | JFloat _ => JTFloat
  | JStr _ => JTStr | JArr _ => JTList | JObj _ => JTDict
  end.

Inductive msg :=
| MExpectedType (what : str) (got : jtype)      (* "Expected a bool, but got: ..." *)
| MExpectedBound (op : str) (bound : Z) (got : jval)
| MExpectedMatch (pattern : str) (got : str)
| MExpectedStrptime (format : str) (got : str)
| MExpectedZone (got : str)
| MDuration (got : str)
| MMinimumSize (size : Z) (got : nat)
| MMaximumSize (size : Z) (got : nat)
| MMissingReference (class_name : str) (id : str)
| MMissingProperty (json : str)
| MIdMismatch (pattern : str) (id : str).

Record perr := Err { err_ref : str; err_msg : msg }.
Definition errs := py_errors perr.
Definition add (ref : str) (m : msg) (es : errs) : errs := py_add es (Err ref m).

(** State (the error container) and exceptions. *)
Definition M (A : Type) := errs -> res (A * errs).
Definition ret {A} (a : A) : M A := fun es => Ok (a, es).
Definition fail {A} (e : exn) : M A := fun _ => Raise e.
Definition mbind {A B} (m : M A) (f : A -> M B) : M B :=
  fun es => match m es with Ok (a, es') => f a es' | Raise e => Raise e end.
Definition report {A} (ref : str) (m : msg) (a : A) : M A := fun es => Ok (a, add ref m es).
Notation "'mdo' x <- r ; f" := (mbind r (fun x => f)) (at level 60, x pattern, right associativity).

(** ['/'.join((ref, part))] *)
Definition slash (ref part : str) : str := ref ++ s_ "/" ++ part.

(** ** [template.format(value)] with one positional argument

    Whether the call raises.  [field] is the name of the replacement field being
    read (reversed).  Simplification: conversions, format specifications,
    attributes and indices in a field (['!', ':', '.', '[']) are not interpreted
    and count as an unknown name. *)
Fixpoint format_scan (s : str) (field : option str) (auto manual : bool) : option exn :=
  match s with
  | [] => match field with None => None | Some _ => Some ValueError end
  | c :: s' =>
      match field with
      | Some f =>
          if N.eqb c 125 then
            match rev f with
            | [] => if manual then Some ValueError
                    else if auto then Some IndexError
                    else format_scan s' None true manual
            | name =>
                if forallb is_digit name then
                  if auto then Some ValueError
                  else if N.eqb (num_of name) 0 then format_scan s' None auto true
                  else Some IndexError
                else Some KeyError
            end
          else format_scan s' (Some (c :: f)) auto manual
      | None =>
          if N.eqb c 123 then
            match s' with
            | d :: s'' => if N.eqb d 123 then format_scan s'' None auto manual
                          else format_scan s' (Some []) auto manual
            | [] => Some ValueError
            end
          else if N.eqb c 125 then
            match s' with
            | d :: s'' => if N.eqb d 125 then format_scan s'' None auto manual
                          else Some ValueError
            | [] => Some ValueError
            end
          else format_scan s' None auto manual
      end
  end.

(** [("Expected to match " + pattern + ", but got: {}").format(value)] *)
Definition format_match (pattern : str) : option exn :=
  format_scan (s_ "Expected to match " ++ pattern ++ s_ ", but got: {}") None false false.
(** [("Expected to strptime " + format + ", but got: {}").format(value)] *)
Definition format_strptime (format : str) : option exn :=
  format_scan (s_ "Expected to strptime " ++ format ++ s_ ", but got: {}") None false false.

(** [errors.add(ref, template.format(value))]: the message is computed first. *)
Definition report_fmt {A} (raised : option exn) (ref : str) (m : msg) (a : A) : M A :=
  match raised with Some e => fail e | None => report ref m a end.

(** ** Bounds *)

Inductive num := NInt (z : Z) | NFloat (f : spec_float).
Definition cmp_num (n : num) (z : Z) : option comparison :=
  match n with NInt x => Some (Z.compare x z) | NFloat f => cmp_float_Z f z end.
(** [value > m] or [value >= m] *)
Definition above (b : bounds) (n : num) (m : Z) : bool :=
  match cmp_num n m with
  | Some Gt => true
  | Some Eq => negb (b_exmin b)
  | _ => false
  end.
(** [value < m] or [value <= m] *)
Definition below (b : bounds) (n : num) (m : Z) : bool :=
  match cmp_num n m with
  | Some Lt => true
  | Some Eq => negb (b_exmax b)
  | _ => false
  end.
Definition op_min (b : bounds) : str := if b_exmin b then s_ ">" else s_ ">=".
Definition op_max (b : bounds) : str := if b_exmax b then s_ "<" else s_ "<=".

Section Py.
  Variable X : ext.
  Variable S : py_settings.
  Variable G : graph.

  (** The [else] branch of [_PARSE_INTEGER_TPL] (fromjsonable.py:310-341) and
      [_PARSE_FLOAT_TPL] (388-418), the same text up to the assigned expression
      [assign].  Since [get_cond_before] is undefined, the check of the maximum
      is a separate [if] statement and the final [else] belongs to it. *)
  Definition check_bounds (b : bounds) (v : jval) (n : num) (assign : M (option pyval))
             (ref : str) : M (option pyval) :=
    match b_min b, b_max b with
    | None, None => assign
    | Some m, None =>
        if above b n m then assign else report ref (MExpectedBound (op_min b) m v) None
    | None, Some m =>
        if below b n m then assign else report ref (MExpectedBound (op_max b) m v) None
    | Some m, Some m' =>
        mdo _ <- (if above b n m then ret tt else report ref (MExpectedBound (op_min b) m v) tt);
        (if below b n m' then assign else report ref (MExpectedBound (op_max b) m' v) None)
    end.

  (** fromjsonable.py:248-266, [_PARSE_BOOLEAN_TPL] *)
  Definition parse_boolean (v : jval) (ref : str) : M (option pyval) :=
    match v with
    | JBool b => ret (Some (PVBool b))
    | _ => report ref (MExpectedType (s_ "a bool") (type_of v)) None
    end.

  Definition b2z (b : bool) : Z := if b then 1%Z else 0%Z.

  (** fromjsonable.py:293-342, [_PARSE_INTEGER_TPL]; [bool] is a subclass of
      [int] in Python and the value is assigned as it is. *)
  Definition parse_integer (b : bounds) (v : jval) (ref : str) : M (option pyval) :=
    match v with
    | JInt z => check_bounds b v (NInt z) (ret (Some (PVInt z))) ref
    | JBool x => check_bounds b v (NInt (b2z x)) (ret (Some (PVBool x))) ref
    | _ => report ref (MExpectedType (s_ "an integer") (type_of v)) None
    end.

  (** [float(z)] *)
  Definition to_float (z : Z) : M (option pyval) :=
    match float_of_Z z with Some f => ret (Some (PVFloat f)) | None => fail OverflowError end.

  (** fromjsonable.py:371-418, [_PARSE_FLOAT_TPL] *)
  Definition parse_float (b : bounds) (v : jval) (ref : str) : M (option pyval) :=
    match v with
    | JFloat f => check_bounds b v (NFloat f) (ret (Some (PVFloat f))) ref
    | JInt z => check_bounds b v (NInt z) (to_float z) ref
    | JBool x => check_bounds b v (NInt (b2z x)) (to_float (b2z x)) ref
    | _ => report ref (MExpectedType (s_ "a number") (type_of v)) None
    end.

  (** The pattern check of [_PARSE_STRING_TPL] and [_PARSE_PATH_TPL]. *)
  Definition check_pattern (pattern : option str) (s : str) (assign : pyval) (ref : str)
    : M (option pyval) :=
    match pattern with
    | None => ret (Some assign)
    | Some p =>
        if x_re_match X p s then ret (Some assign)
        else report_fmt (format_match p) ref (MExpectedMatch p s) None
    end.

  (** fromjsonable.py:447-480, [_PARSE_STRING_TPL] *)
  Definition parse_string (pattern : option str) (v : jval) (ref : str) : M (option pyval) :=
    match v with
    | JStr s => check_pattern pattern s (PVStr s) ref
    | _ => report ref (MExpectedType (s_ "a string") (type_of v)) None
    end.

  Definition path_value (s : str) : pyval := if pathlib S then PVPath (x_path X s) else PVStr s.

  (** fromjsonable.py:509-554, [_PARSE_PATH_TPL] *)
  Definition parse_path (pattern : option str) (v : jval) (ref : str) : M (option pyval) :=
    match v with
    | JStr s => check_pattern pattern s (path_value s) ref
    | _ => report ref (MExpectedType (s_ "a string") (type_of v)) None
    end.

  (** fromjsonable.py:586-616 [_PARSE_DATE_TPL], 645-674 [_PARSE_DATE_TIME_TPL],
      703-733 [_PARSE_TIME_TPL]; [wrap] is the conversion of the result. *)
  Definition parse_dt (wrap : dt -> pyval) (format : str) (v : jval) (ref : str) : M (option pyval) :=
    match v with
    | JStr s =>
        match x_strptime X format s with
        | Some d => ret (Some (wrap d))
        | None => report_fmt (format_strptime format) ref (MExpectedStrptime format s) None
        end
    | _ => report ref (MExpectedType (s_ "a string") (type_of v)) None
    end.

  (** fromjsonable.py:762-780 [_PARSE_TIME_ZONE_AS_STR_TPL], 782-809
      [_PARSE_TIME_ZONE_PYTZ_TPL] *)
  Definition parse_time_zone (v : jval) (ref : str) : M (option pyval) :=
    match v with
    | JStr s =>
        if pytz S then
          match x_tz X s with
          | Some z => ret (Some (PVZone z))
          | None => report ref (MExpectedZone s) None
          end
        else ret (Some (PVStr s))
    | _ => report ref (MExpectedType (s_ "a string") (type_of v)) None
    end.

  (** fromjsonable.py:852-878, [_PARSE_DURATION_TPL] *)
  Definition parse_duration (v : jval) (ref : str) : M (option pyval) :=
    match v with
    | JStr s =>
        match x_dur_from X s with
        | Some us => ret (Some (PVDuration us))
        | None => report ref (MDuration s) None
        end
    | _ => report ref (MExpectedType (s_ "a string") (type_of v)) None
    end.

  Definition parser := ty -> str -> M (option pyval).

  (** The loop of [_PARSE_ARRAY_TPL], fromjsonable.py:919-934. *)
  Fixpoint parse_items (ps : list parser) (t : ty) (ref : str) (i : nat) (target : list pyval)
    : M (list pyval) :=
    match ps with
    | [] => ret target
    | p :: ps' =>
        mdo item <- p t (slash ref (dec_nat i));
        let target' := match item with Some x => target ++ [x] | None => target end in
        fun es => if py_full es then Ok (target', es)
                  else parse_items ps' t ref (Datatypes.S i) target' es
    end.

  (** fromjsonable.py:907-963, [_PARSE_ARRAY_TPL] *)
  Definition parse_array (t : ty) (mn mx : option Z) (v : jval) (ps : list parser) (ref : str)
    : M (option pyval) :=
    let size := length ps in
    let too_small := match mn with Some m => (Z.of_nat size <? m)%Z | None => false end in
    let too_big := match mx with Some m => (m <? Z.of_nat size)%Z | None => false end in
    if too_small then report ref (MMinimumSize (match mn with Some m => m | None => 0%Z end) size) None
    else if too_big then report ref (MMaximumSize (match mx with Some m => m | None => 0%Z end) size) None
    else mdo l <- parse_items ps t ref 0 []; ret (Some (PVList l)).

  (** The loop of [_PARSE_MAP_TPL], fromjsonable.py:1036-1058 (keys of JSON
      objects are strings). *)
  Fixpoint parse_entries (ps : list (str * parser)) (t : ty) (ref : str)
           (target : list (str * pyval)) : M (list (str * pyval)) :=
    match ps with
    | [] => ret target
    | (k, p) :: ps' =>
        mdo item <- p t (slash ref (x_repr X k));
        let target' := match item with Some x => upsert k x target | None => target end in
        fun es => if py_full es then Ok (target', es) else parse_entries ps' t ref target' es
    end.

  (** The attribute generated for a property or a registry
      (mapry/py/naming.py:10-26); the generator raises for an empty name. *)
  Definition attr (name : str) : str :=
    match as_attribute name with Ok a => a | Raise _ => [] end.
  (** The key of a registry (mapry/naming.py:94-108); the generator raises for a
      plural without initial capital. *)
  Definition registry_key (plural : str) : str :=
    match json_plural plural with Ok k => k | Raise _ => [] end.

  (** Registries visible to the parsing code, by attribute name. *)
  Definition registries := list (str * list (str * addr)).

  (** fromjsonable.py:1331-1360, [_PARSE_CLASS_REF_TPL] *)
  Definition parse_reference (R : registries) (class_name : str) (v : jval) (ref : str)
    : M (option pyval) :=
    match v with
    | JStr s =>
        match find_class G class_name with
        | None => fail KeyError   (* excluded by schema parsing *)
        | Some c =>
            match lookup (attr (c_plural c)) R with
            | None => fail KeyError   (* every registry exists *)
            | Some r =>
                match lookup s r with
                | None => report ref (MMissingReference class_name s) None
                | Some a => ret (Some (PVRef a))
                end
            end
        end
    | _ => report ref (MExpectedType (s_ "a str") (type_of v)) None
    end.

  (** All attributes of a placeholder are None: mapry/py/generate/parse.py:87-112,
      131-152, 171-193 and the constructors in mapry/py/generate/types.py:106-188. *)
  Definition placeholder (ps : list prop) : list (str * pyval) :=
    map (fun p => (attr (p_name p), PVNone)) ps.

  (** The members of a JSON object with the parsers of their values. *)
  Definition members := list (str * (jval * parser)).

  (** fromjsonable.py:1252-1280, [_PARSE_PROPERTY_TPL], into the attributes of
      the target. *)
  Definition parse_property (p : prop) (o : members) (ref : str) (attrs : list (str * pyval))
    : M (list (str * pyval)) :=
    match lookup (p_json p) o with
    | None | Some (JNull, _) =>
        if p_optional p then ret attrs
        else report ref (MMissingProperty (p_json p)) attrs
    | Some (_, parse) =>
        mdo r <- parse (p_type p) (slash ref (p_json p));
        ret (match r with Some x => upsert (attr (p_name p)) x attrs | None => attrs end)
    end.

  (** The properties of a composite, fromjsonable.py:1492-1497; returns early
      when the errors are full.  The flag tells whether it returned early (needed
      by the graph, 1703-1709). *)
  Fixpoint parse_properties (ps : list prop) (o : members) (ref : str) (attrs : list (str * pyval))
    : M (bool * list (str * pyval)) :=
    match ps with
    | [] => ret (false, attrs)
    | p :: ps' =>
        mdo attrs' <- parse_property p o ref attrs;
        fun es => if py_full es then Ok ((true, attrs'), es)
                  else parse_properties ps' o ref attrs' es
    end.

  (** fromjsonable.py:1456-1497, [_x_from] of [_PARSE_COMPOSITE_TPL]: fills the
      attributes of the target. *)
  Definition composite_from (ps : list prop) (v : jval) (o : members) (ref : str)
             (attrs : list (str * pyval)) : M (list (str * pyval)) :=
    match v with
    | JObj _ => mdo (_, attrs') <- parse_properties ps o ref attrs; ret attrs'
    | _ => report ref (MExpectedType (s_ "a dictionary") (type_of v)) attrs
    end.

  (** fromjsonable.py:1104-1249, [_parse_value]. *)
  Fixpoint parse_value (R : registries) (v : jval) : parser :=
    fun t ref =>
    match t with
    | TBool => parse_boolean v ref
    | TInt b => parse_integer b v ref
    | TFloat b => parse_float b v ref
    | TStr p => parse_string p v ref
    | TPath p => parse_path p v ref
    | TDate f => parse_dt (fun d => PVDate (date_of d)) f v ref
    | TTime f => parse_dt (fun d => PVTime (time_of d)) f v ref
    | TDatetime f => parse_dt PVDatetime f v ref
    | TTimeZone => parse_time_zone v ref
    | TDuration => parse_duration v ref
    | TArray t' mn mx =>
        match v with
        | JArr l => parse_array t' mn mx v (map (parse_value R) l) ref
        | _ => report ref (MExpectedType (s_ "a list") (type_of v)) None
        end
    | TMap t' =>
        match v with
        | JObj l =>
            mdo d <- parse_entries (map (fun kv => (fst kv, parse_value R (snd kv))) l) t' ref [];
            ret (Some (PVDict d))
        | _ => report ref (MExpectedType (s_ "a dict") (type_of v)) None
        end
    | TClass n => parse_reference R n v ref
    | TEmbed n =>
        (* fromjsonable.py:1393-1417, [_PARSE_EMBED_TPL] *)
        match find_embed G n with
        | None => fail KeyError   (* excluded by schema parsing *)
        | Some e =>
            mdo attrs <- composite_from (e_props e) v
              (match v with
               | JObj l => map (fun kv => (fst kv, (snd kv, parse_value R (snd kv)))) l
               | _ => []
               end) ref (placeholder (e_props e));
            ret (Some (PVEmbed n attrs))
        end
    end.

  Definition members_of (R : registries) (v : jval) : members :=
    match v with
    | JObj l => map (fun kv => (fst kv, (snd kv, parse_value R (snd kv)))) l
    | _ => []
    end.

  (** fromjsonable.py:1500-1549, the public [x_from] of a class or an embed. *)
  Definition public_composite_from (ps : list prop) (R : registries) (v : jval) (ref : str)
    : M (option (list (str * pyval))) :=
    mdo attrs <- composite_from ps v (members_of R v) ref (placeholder ps);
    fun es => if py_empty es then Ok (Some attrs, es) else Ok (None, es).

  (** ** The graph, fromjsonable.py:1596-1715 *)

  (** [for id in registry_value: ...] (1645-1666): allocates the placeholders. *)
  Fixpoint allocate (c : cls) (ref : str) (ids : list str)
           (reg : list (str * addr)) (heap : list instance)
    : M (list (str * addr) * list instance) :=
    match ids with
    | [] => ret (reg, heap)
    | id :: ids' =>
        let step := fun es : errs =>
          allocate c ref ids' (upsert id (length heap) reg)
                   (heap ++ [Instance (c_name c) id (placeholder (c_props c))]) es in
        match c_id_pattern c with
        | Some p =>
            if x_re_match X p id then step
            else fun es =>
              let es' := add (slash ref (registry_key (c_plural c))) (MIdMismatch p id) es in
              if py_full es' then Ok ((reg, heap), es') else step es'
        | None => step
        end
    end.

  (** The pre-allocation of all registries (1622-1670). [None]: returned early. *)
  Fixpoint preallocate (cs : list cls) (o : members) (ref : str) (R : registries)
           (heap : list instance) : M (option (registries * list instance)) :=
    match cs with
    | [] => ret (Some (R, heap))
    | c :: cs' =>
        mdo (R', heap') <-
          match lookup (registry_key (c_plural c)) o with
          | None | Some (JNull, _) => ret (R, heap)
          | Some (JObj l, _) =>
              mdo (reg, heap') <- allocate c ref (keys l) [] heap;
              ret (upsert (attr (c_plural c)) reg R, heap')
          | Some (v, _) =>
              report (slash ref (registry_key (c_plural c)))
                     (MExpectedType (s_ "a dictionary") (type_of v)) (R, heap)
          end;
        fun es => if py_full es then Ok (None, es) else preallocate cs' o ref R' heap' es
    end.

  Definition set_attrs (a : addr) (attrs : list (str * pyval)) (heap : list instance)
    : list instance :=
    match nth_error heap a with
    | Some i => firstn a heap ++ Instance (i_class i) (i_id i) attrs :: skipn (Datatypes.S a) heap
    | None => heap
    end.

  (** [for id, instance_value in registry_value.items(): ...] (1685-1701).
      [None]: returned early. *)
  Fixpoint parse_instances (c : cls) (R : registries) (reg : list (str * addr)) (ref : str)
           (l : list (str * jval)) (heap : list instance) : M (option (list instance)) :=
    match l with
    | [] => ret (Some heap)
    | (id, v) :: l' =>
        match lookup id reg with
        | None => fail KeyError   (* pre-allocated *)
        | Some a =>
            match nth_error heap a with
            | None => fail KeyError
            | Some i =>
                mdo attrs <- composite_from (c_props c) v (members_of R v)
                  (slash (slash ref (registry_key (c_plural c))) (x_repr X id)) (i_attrs i);
                fun es => if py_full es then Ok (None, es)
                          else parse_instances c R reg ref l' (set_attrs a attrs heap) es
            end
        end
    end.

  (** fromjsonable.py:1677-1702 *)
  Fixpoint parse_registries (cs : list cls) (o : members) (ref : str) (R : registries)
           (heap : list instance) : M (option (list instance)) :=
    match cs with
    | [] => ret (Some heap)
    | c :: cs' =>
        match lookup (registry_key (c_plural c)) o with
        | None => parse_registries cs' o ref R heap
        | Some (JObj l, _) =>
            match lookup (attr (c_plural c)) R with
            | None => fail AttributeError
            | Some reg =>
                mdo r <- parse_instances c R reg ref l heap;
                match r with
                | None => ret None
                | Some heap' => parse_registries cs' o ref R heap'
                end
            end
        | Some (_, _) => fail AttributeError   (* [registry_value.items()] *)
        end
    end.

  Definition empty_registries : registries :=
    fold_left (fun R c => upsert (attr (c_plural c)) [] R) (g_classes G) [].

  (** fromjsonable.py:1596-1715, [_PARSE_GRAPH_TPL] *)
  Definition graph_from (v : jval) (ref : str) : M (option pygraph) :=
    fun es =>
    if py_full es then Ok (None, es) else
    match v with
    | JObj l =>
        (* The registries are not consulted during the pre-allocation. *)
        (mdo r <- preallocate (g_classes G) (members_of [] v) ref empty_registries [];
         match r with
         | None => ret None
         | Some (R, heap) =>
             fun es =>
             if (match g_classes G with [] => false | _ => true end) && negb (py_empty es)
             then Ok (None, es)
             else
               (mdo r <- parse_registries (g_classes G) (members_of R v) ref R heap;
                match r with
                | None => ret None
                | Some heap' =>
                    mdo (early, attrs) <- parse_properties (g_props G) (members_of R v) ref
                                            (placeholder (g_props G));
                    if early : bool then ret None
                    else fun es =>
                      if py_empty es then Ok (Some (PyGraph attrs R heap'), es)
                      else Ok (None, es)
                end) es
         end) es
    | _ => Ok (None, add ref (MExpectedType (s_ "a dictionary") (type_of v)) es)
    end.

  (** ** Serialization *)

  (** An expression used as it is (tojsonable.py:379-381).  Simplification: a value
      which is no JSON-able raises here instead of in the consumer. *)
  Definition as_is (v : pyval) : res jval :=
    match v with
    | PVNone => Ok JNull
    | PVBool b => Ok (JBool b)
    | PVInt z => Ok (JInt z)
    | PVFloat f => Ok (JFloat f)
    | PVStr s => Ok (JStr s)
    | _ => Raise TypeError   (* not a JSON-able; reported later, by json.dump *)
    end.

  Definition serializer := ty -> res jval.

  Fixpoint serialize_items (ss : list serializer) (t : ty) : res (list jval) :=
    match ss with
    | [] => Ok []
    | s :: ss' => do x <- s t; do xs <- serialize_items ss' t; Ok (x :: xs)
    end.

  Fixpoint serialize_entries (ss : list (str * serializer)) (t : ty) : res (list (str * jval)) :=
    match ss with
    | [] => Ok []
    | (k, s) :: ss' => do x <- s t; do xs <- serialize_entries ss' t; Ok ((k, x) :: xs)
    end.

  Definition attributes := list (str * (pyval * serializer)).

  (** tojsonable.py:475-516, [_SERIALIZE_PROPERTY_TPL]; [name] is the attribute
      read from the instance. *)
  Definition serialize_property (name : str) (p : prop) (o : attributes)
             (target : list (str * jval)) : res (list (str * jval)) :=
    match lookup name o with
    | None => Raise AttributeError
    | Some (v, s) =>
        match p_optional p, v with
        | true, PVNone => Ok target
        | _, _ => do x <- s (p_type p); Ok (upsert (p_json p) x target)
        end
    end.

  Fixpoint serialize_properties (name_of : prop -> str) (ps : list prop) (o : attributes)
           (target : list (str * jval)) : res (list (str * jval)) :=
    match ps with
    | [] => Ok target
    | p :: ps' => do target' <- serialize_property (name_of p) p o target;
                  serialize_properties name_of ps' o target'
    end.

  (** tojsonable.py:363-425 [_serialization_expr], 204-360 [_serialize_array],
      [_serialize_map], 519-580 [_serialize_class_or_embed] (which reads
      [instance.{prop.name}], not the attribute). *)
  Fixpoint serialize_value (heap : list instance) (v : pyval) : serializer :=
    fun t =>
    match t with
    | TBool | TInt _ | TFloat _ | TStr _ => as_is v
    | TPath _ =>
        if pathlib S then match v with PVPath s => Ok (JStr s) | _ => Raise TypeError end
        else as_is v
    | TDate f => match v with PVDate d => Ok (JStr (x_strftime X f d)) | _ => Raise AttributeError end
    | TTime f => match v with PVTime d => Ok (JStr (x_strftime X f d)) | _ => Raise AttributeError end
    | TDatetime f => match v with PVDatetime d => Ok (JStr (x_strftime X f d)) | _ => Raise AttributeError end
    | TTimeZone =>
        if pytz S then match v with PVZone s => Ok (JStr s) | _ => Raise TypeError end
        else as_is v
    | TDuration => match v with PVDuration us => Ok (JStr (x_dur_to X us)) | _ => Raise TypeError end
    | TArray t' _ _ =>
        match v with
        | PVList l => do xs <- serialize_items (map (serialize_value heap) l) t'; Ok (JArr xs)
        | _ => Raise TypeError
        end
    | TMap t' =>
        match v with
        | PVDict l =>
            do xs <- serialize_entries (map (fun kv => (fst kv, serialize_value heap (snd kv))) l) t';
            Ok (JObj xs)
        | _ => Raise AttributeError
        end
    | TClass _ =>
        match v with
        | PVRef a => match nth_error heap a with
                     | Some i => Ok (JStr (i_id i))
                     | None => Raise AttributeError
                     end
        | _ => Raise AttributeError
        end
    | TEmbed n =>
        match find_embed G n, v with
        | Some e, PVEmbed _ attrs =>
            do o <- serialize_properties p_name (e_props e)
                 (map (fun kv => (fst kv, (snd kv, serialize_value heap (snd kv)))) attrs) [];
            Ok (JObj o)
        | _, _ => Raise AttributeError
        end
    end.

  Definition attributes_of (heap : list instance) (attrs : list (str * pyval)) : attributes :=
    map (fun kv => (fst kv, (snd kv, serialize_value heap (snd kv)))) attrs.

  (** tojsonable.py:519-580, serialization of a class instance. *)
  Definition serialize_instance (heap : list instance) (c : cls) (i : instance) : res jval :=
    do o <- serialize_properties p_name (c_props c) (attributes_of heap (i_attrs i)) [];
    Ok (JObj o).

  (** The loop of tojsonable.py:636-647. *)
  Fixpoint serialize_registry (heap : list instance) (c : cls) (reg : list (str * addr))
    : res (list (str * jval)) :=
    match reg with
    | [] => Ok []
    | (id, a) :: reg' =>
        match nth_error heap a with
        | None => Raise AttributeError
        | Some i =>
            if negb (str_eqb id (i_id i)) then Raise ValueError
            else do x <- serialize_instance heap c i;
                 do xs <- serialize_registry heap c reg';
                 Ok ((id, x) :: xs)
        end
    end.

  (** tojsonable.py:618-650 *)
  Fixpoint serialize_registries (heap : list instance) (cs : list cls) (R : registries)
           (target : list (str * jval)) : res (list (str * jval)) :=
    match cs with
    | [] => Ok target
    | c :: cs' =>
        match lookup (attr (c_plural c)) R with
        | None => Raise AttributeError
        | Some [] => serialize_registries heap cs' R target
        | Some reg =>
            do o <- serialize_registry heap c reg;
            serialize_registries heap cs' R (upsert (registry_key (c_plural c)) (JObj o) target)
        end
    end.

  (** tojsonable.py:583-682, [_SERIALIZE_GRAPH_TPL] *)
  Definition serialize_graph (pg : pygraph) : res jval :=
    do target <- serialize_properties (fun p => attr (p_name p)) (g_props G)
                   (attributes_of (pg_heap pg) (pg_attrs pg)) [];
    do target' <- serialize_registries (pg_heap pg) (g_classes G) (pg_registries pg) target;
    Ok (JObj target').
End Py.
