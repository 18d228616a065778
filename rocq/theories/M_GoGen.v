(** Denotation of the Go code generated by mapry/go/generate/fromjsonable.py and
    mapry/go/generate/tojsonable.py.

    One function per template: it takes what the template is instantiated with
    and does what the instantiated code does.  A panic is a value ([Panic]).
    Simplifications: messages are kept as constructors instead of texts; nil and
    empty slices and maps are identified; targets are fresh zero values; the
    stack depth is unbounded; the pattern variables are replaced by the patterns
    they were compiled from (see M_GoPatterns.v). *)
From Verif Require Import Base M_Naming M_Errors M_Dec M_Schema M_Strftime M_Duration M_Num.
From Coq Require Import String List Arith NArith ZArith Bool Floats.SpecFloat.
Import ListNotations.

(** ** External functions of the Go standard library *)

Record gext := GExt {
  g_time : Type;                               (** [time.Time] *)
  g_match : str -> str -> bool;                (** [regexp.MustCompile(p).MatchString(s)] *)
  g_time_parse : str -> str -> option g_time;  (** [time.Parse(layout, s)] *)
  g_time_format : str -> g_time -> str;        (** [t.Format(layout)] *)
  g_load : str -> option str                   (** [time.LoadLocation(s)], as its [String()] *)
}.

Definition addr := nat.

(** The values of the generated types.  A non-nil pointer to an optional value is
    represented by the value; [GZero] stands for the zero value of any type other
    than a pointer.  Class instances are addresses of the heap. *)
Inductive goval (T : Type) :=
| GBool (b : bool)
| GInt (z : Z)
| GFloat (f : spec_float)
| GStr (s : str)
| GTime (t : T)
| GZone (s : str)
| GDuration (ns : Z)
| GList (l : list (goval T))
| GMap (l : list (str * goval T))
| GRef (a : addr)
| GStruct (fields : list (str * goval T))
| GNil
| GZero.
Arguments GBool {T}. Arguments GInt {T}. Arguments GFloat {T}. Arguments GStr {T}.
Arguments GTime {T}. Arguments GZone {T}. Arguments GDuration {T}. Arguments GList {T}.
Arguments GMap {T}. Arguments GRef {T}. Arguments GStruct {T}. Arguments GNil {T}.
Arguments GZero {T}.

(** An instance of a class: mapry/go/generate/types.py:52-90. *)
Record gobj (T : Type) := GObj { o_class : str; o_id : str; o_fields : list (str * goval T) }.
Arguments GObj {T}. Arguments o_class {T}. Arguments o_id {T}. Arguments o_fields {T}.

Definition gregistries := list (str * list (str * addr)).

Record gograph (T : Type) := GoGraph {
  gg_fields : list (str * goval T);
  gg_registries : gregistries;
  gg_heap : list (gobj T) }.
Arguments GoGraph {T}. Arguments gg_fields {T}. Arguments gg_registries {T}. Arguments gg_heap {T}.

(** ** Errors *)

(** Dynamic types of a JSONable; [int64] occurs only in what the generated
    serializer returns, [encoding/json] decodes every number to [float64]. *)
Inductive gtype := GTNil | GTBool | GTInt64 | GTFloat64 | GTString | GTSlice | GTMap.
Definition gtype_of (v : jval) : gtype :=
  match v with
  | JNull => GTNil | JBool _ => GTBool | JInt _ => GTInt64 | JFloat _ => GTFloat64
  | JStr _ => GTString | JArr _ => GTSlice | JObj _ => GTMap
  end.

Inductive gmsg :=
| GExpectedType (what : str) (got : gtype)
| GWholeNumber (got : spec_float)
| GOverflow (got : spec_float)
| GExpectedBound (op : str) (bound : Z)
| GExpectedMatch (pattern got : str)
| GExpectedLayout (layout got : str)
| GLocation (got : str)
| GDurationMsg (got : str)
| GMinimumSize (size : Z) (got : nat)
| GMaximumSize (size : Z) (got : nat)
| GMissingReference (class_name id : str)
| GMissingProperty (json : str)
| GIdMismatch (pattern id : str).

Record gerr := GErr { gerr_ref : str; gerr_msg : gmsg }.
Definition gerrs := go_errors gerr.
Definition gadd (ref : str) (m : gmsg) (es : gerrs) : gerrs := go_add es (GErr ref m).

Inductive panic := PNonEmptyErrors | PNilTarget | PNilDereference.
Inductive gout (A : Type) := Done (a : A) | Panic (p : panic).
Arguments Done {A}. Arguments Panic {A}.

(** State (the error container) and panics. *)
Definition GM (A : Type) := gerrs -> gout (A * gerrs).
Definition gret {A} (a : A) : GM A := fun es => Done (a, es).
Definition gpanic {A} (p : panic) : GM A := fun _ => Panic p.
Definition gbind {A B} (m : GM A) (f : A -> GM B) : GM B :=
  fun es => match m es with Done (a, es') => f a es' | Panic p => Panic p end.
Definition greport {A} (ref : str) (m : gmsg) (a : A) : GM A := fun es => Done (a, gadd ref m es).
Notation "'gdo' x <- r ; f" := (gbind r (fun x => f)) (at level 60, x pattern, right associativity).

(** [strings.Join([]string{ref, part}, "/")] *)
Definition gslash (ref part : str) : str := ref ++ s_ "/" ++ part.

(** ** Bounds *)

Definition gop_min (b : bounds) : str := if b_exmin b then s_ ">" else s_ ">=".
Definition gop_max (b : bounds) : str := if b_exmax b then s_ "<" else s_ "<=".

(** ** Names *)

(** The field of a property or a registry (mapry/naming.py:23-45, [ucamel_case]);
    the generator raises for an empty name. *)
Definition field (name : str) : str :=
  match ucamel_case name with Ok a => a | Raise _ => [] end.
(** The key of a registry (mapry/naming.py:94-108, [json_plural]). *)
Definition go_key (plural : str) : str :=
  match json_plural plural with Ok k => k | Raise _ => [] end.
(** fromjsonable.py:785, [mapry.go.timeformat.convert(a_format=a_type.format)]; the
    generator raises if the conversion does. *)
Definition layout (format : str) : str :=
  match convert format with Ok l => l | Raise _ => [] end.

(** mapry/go/generate/__init__.py:222-237, [is_pointer_type] *)
Definition is_pointer_type (t : ty) : bool :=
  match t with TTimeZone | TArray _ _ _ | TMap _ | TClass _ => true | _ => false end.

Section Go.
  Variable X : gext.
  Variable G : graph.
  (** The order in which [range] visits a map: [order loop ref m], for the loop
      number [loop] of the template at the reference [ref]. *)
  Variable order : forall A : Type, nat -> str -> list (str * A) -> list (str * A).

  Notation val := (goval (g_time X)).
  Notation obj := (gobj (g_time X)).

  (** The bounds of [_PARSE_INTEGER_TPL] (fromjsonable.py:507-550) and
      [_PARSE_FLOAT_TPL] (597-636), the same up to the comparison [cmp]. *)
  Definition gcheck_bounds (b : bounds) (cmp : Z -> option comparison) (x : val) (ref : str) : GM val :=
    match b_min b, b_max b with
    | None, None => gret x
    | Some m, None =>
        if negb (over (b_exmin b) (cmp m)) then greport ref (GExpectedBound (gop_min b) m) GZero
        else gret x
    | None, Some m =>
        if negb (under (b_exmax b) (cmp m)) then greport ref (GExpectedBound (gop_max b) m) GZero
        else gret x
    | Some m, Some m' =>
        if negb (over (b_exmin b) (cmp m)) then greport ref (GExpectedBound (gop_min b) m) GZero
        else if negb (under (b_exmax b) (cmp m')) then greport ref (GExpectedBound (gop_max b) m') GZero
        else gret x
    end.

  (** fromjsonable.py:423-443, [_PARSE_BOOLEAN_TPL] *)
  Definition go_boolean (v : jval) (ref : str) : GM val :=
    match v with
    | JBool b => gret (GBool b)
    | _ => greport ref (GExpectedType (s_ "a bool") (gtype_of v)) GZero
    end.

  (** fromjsonable.py:470-551, [_PARSE_INTEGER_TPL] *)
  Definition go_integer (b : bounds) (v : jval) (ref : str) : GM val :=
    match v with
    | JFloat f =>
        if negb (is_trunc f) then greport ref (GWholeNumber f) GZero
        else if over false (cmp_float_Z f (2 ^ 63)) || under true (cmp_float_Z f (- 2 ^ 63))
        then greport ref (GOverflow f) GZero
        else let z := trunc_Z f in gcheck_bounds b (fun m => Some (Z.compare z m)) (GInt z) ref
    | _ => greport ref (GExpectedType (s_ "a float64") (gtype_of v)) GZero
    end.

  (** fromjsonable.py:580-637, [_PARSE_FLOAT_TPL] *)
  Definition go_float (b : bounds) (v : jval) (ref : str) : GM val :=
    match v with
    | JFloat f => gcheck_bounds b (float_cmp f) (GFloat f) ref
    | _ => greport ref (GExpectedType (s_ "a float64") (gtype_of v)) GZero
    end.

  (** fromjsonable.py:666-702, [_PARSE_STRING_TPL] (strings and paths) *)
  Definition go_string (pattern : option str) (v : jval) (ref : str) : GM val :=
    match v with
    | JStr s =>
        match pattern with
        | None => gret (GStr s)
        | Some p => if negb (g_match X p s) then greport ref (GExpectedMatch p s) GZero
                    else gret (GStr s)
        end
    | _ => greport ref (GExpectedType (s_ "a string") (gtype_of v)) GZero
    end.

  (** fromjsonable.py:735-769, [_PARSE_DATE_TIME_TPL] *)
  Definition go_date_time (format : str) (v : jval) (ref : str) : GM val :=
    match v with
    | JStr s =>
        match g_time_parse X (layout format) s with
        | Some t => gret (GTime t)
        | None => greport ref (GExpectedLayout (layout format) s) GZero
        end
    | _ => greport ref (GExpectedType (s_ "a string") (gtype_of v)) GZero
    end.

  (** fromjsonable.py:802-836, [_PARSE_TIME_ZONE_TPL] ([*time.Location] is a
      pointer) *)
  Definition go_time_zone (v : jval) (ref : str) : GM val :=
    match v with
    | JStr s =>
        match g_load X s with
        | Some z => gret (GZone z)
        | None => greport ref (GLocation s) GNil
        end
    | _ => greport ref (GExpectedType (s_ "a string") (gtype_of v)) GNil
    end.

  (** fromjsonable.py:863-897, [_PARSE_DURATION_TPL] *)
  Definition go_duration (v : jval) (ref : str) : GM val :=
    match v with
    | JStr s =>
        match go_dur_from s with
        | Some d => gret (GDuration d)
        | None => greport ref (GDurationMsg s) GZero
        end
    | _ => greport ref (GExpectedType (s_ "a string") (gtype_of v)) GZero
    end.

  Definition gparser := ty -> str -> GM val.

  (** The loop of [_PARSE_ARRAY_TPL], fromjsonable.py:929-935; the items after a
      [break] keep their zero values. *)
  Fixpoint go_items (ps : list gparser) (t : ty) (ref : str) (i : nat) : GM (list val) :=
    match ps with
    | [] => gret []
    | p :: ps' =>
        gdo x <- p t (gslash ref (dec_nat i));
        fun es => if go_full es then Done (x :: map (fun _ => GZero) ps', es)
                  else (gdo xs <- go_items ps' t ref (S i); gret (x :: xs)) es
    end.

  (** fromjsonable.py:923-981, [_PARSE_ARRAY_TPL] *)
  Definition go_array (t : ty) (mn mx : option Z) (ps : list gparser) (ref : str) : GM val :=
    let size := length ps in
    let too_small := match mn with Some m => (Z.of_nat size <? m)%Z | None => false end in
    let too_big := match mx with Some m => (m <? Z.of_nat size)%Z | None => false end in
    if too_small then greport ref (GMinimumSize (match mn with Some m => m | None => 0%Z end) size) GNil
    else if too_big then greport ref (GMaximumSize (match mx with Some m => m | None => 0%Z end) size) GNil
    else gdo l <- go_items ps t ref 0; gret (GList l).

  (** The loop of [_PARSE_MAP_TPL], fromjsonable.py:1048-1055.  Simplification: a
      key is set also if its value was rejected (the target is undefined then). *)
  Fixpoint go_entries (ps : list (str * gparser)) (t : ty) (ref : str) (target : list (str * val))
    : GM (list (str * val)) :=
    match ps with
    | [] => gret target
    | (k, p) :: ps' =>
        gdo x <- p t (gslash ref k);
        let target' := upsert k x target in
        fun es => if go_full es then Done (target', es) else go_entries ps' t ref target' es
    end.

  (** fromjsonable.py:1384-1414, [_PARSE_CLASS_REF_TPL].  A registry which was not
      made is a nil map, in which nothing is found. *)
  Definition go_reference (R : gregistries) (class_name : str) (v : jval) (ref : str) : GM val :=
    match v with
    | JStr s =>
        match find_class G class_name with
        | None => gpanic PNilDereference   (* excluded by schema parsing *)
        | Some c =>
            match lookup s (match lookup (field (c_plural c)) R with Some r => r | None => [] end) with
            | None => greport ref (GMissingReference class_name s) GNil
            | Some a => gret (GRef a)
            end
        end
    | _ => greport ref (GExpectedType (s_ "a string") (gtype_of v)) GNil
    end.

  (** The zero values of the fields (mapry/go/generate/types.py:34-49): pointers
      for optional properties and pointer types. *)
  Definition zero_field (p : prop) : val :=
    if p_optional p || is_pointer_type (p_type p) then GNil else GZero.
  Definition zero_fields (ps : list prop) : list (str * val) :=
    map (fun p => (field (p_name p), zero_field p)) ps.

  (** The members of a JSON object with the parsers of their values. *)
  Definition gmembers := list (str * gparser).

  (** fromjsonable.py:1256-1292, [_PARSE_PROPERTY_TPL], into the fields of the
      target: [value, ok := cast[json]]. *)
  Definition go_property (p : prop) (o : gmembers) (ref : str) (fields : list (str * val))
    : GM (list (str * val)) :=
    match lookup (p_json p) o with
    | None =>
        if p_optional p then gret fields
        else greport ref (GMissingProperty (p_json p)) fields
    | Some parse =>
        gdo x <- parse (p_type p) (gslash ref (p_json p));
        gret (upsert (field (p_name p)) x fields)
    end.

  (** The properties of a composite, fromjsonable.py:1567-1574: returns early when
      the errors are full. *)
  Fixpoint go_properties (ps : list prop) (o : gmembers) (ref : str) (fields : list (str * val))
    : GM (list (str * val)) :=
    match ps with
    | [] => gret fields
    | p :: ps' =>
        gdo fields' <- go_property p o ref fields;
        fun es => if go_full es then Done (fields', es) else go_properties ps' o ref fields' es
    end.

  (** fromjsonable.py:1502-1578, [_PARSE_COMPOSITE_TPL], the body after the checks
      of nil arguments. *)
  Definition go_composite (ps : list prop) (v : jval) (o : gmembers) (ref : str)
             (fields : list (str * val)) : GM (list (str * val)) :=
    fun es =>
    if negb (go_empty es) then Panic PNonEmptyErrors else
    match v with
    | JObj _ => go_properties ps o ref fields es
    | _ => greport ref (GExpectedType (s_ "a map[string]interface{}") (gtype_of v)) fields es
    end.

  (** fromjsonable.py:1132-1253, [_parse_value]. *)
  Fixpoint go_value (R : gregistries) (v : jval) : gparser :=
    fun t ref =>
    match t with
    | TBool => go_boolean v ref
    | TInt b => go_integer b v ref
    | TFloat b => go_float b v ref
    | TStr p | TPath p => go_string p v ref
    | TDate f | TTime f | TDatetime f => go_date_time f v ref
    | TTimeZone => go_time_zone v ref
    | TDuration => go_duration v ref
    | TArray t' mn mx =>
        match v with
        | JArr l => go_array t' mn mx (map (go_value R) l) ref
        | _ => greport ref (GExpectedType (s_ "a []interface{}") (gtype_of v)) GNil
        end
    | TMap t' =>
        match v with
        | JObj l =>
            gdo d <- go_entries (order _ 0 ref (map (fun kv => (fst kv, go_value R (snd kv))) l)) t' ref [];
            gret (GMap d)
        | _ => greport ref (GExpectedType (s_ "a map[string]interface{}") (gtype_of v)) GNil
        end
    | TClass n => go_reference R n v ref
    | TEmbed n =>
        (* fromjsonable.py:1449-1464, [_PARSE_EMBED_TPL] *)
        match find_embed G n with
        | None => gpanic PNilDereference   (* excluded by schema parsing *)
        | Some e =>
            gdo fields <- go_composite (e_props e) v
              (match v with
               | JObj l => map (fun kv => (fst kv, go_value R (snd kv))) l
               | _ => []
               end) ref (zero_fields (e_props e));
            gret (GStruct fields)
        end
    end.

  Definition gmembers_of (R : gregistries) (v : jval) : gmembers :=
    match v with
    | JObj l => map (fun kv => (fst kv, go_value R (snd kv))) l
    | _ => []
    end.

  (** ** The graph, fromjsonable.py:1615-1740 *)

  (** [for id := range ...Map] (1677-1700) *)
  Fixpoint go_allocate (c : cls) (ref : str) (ids : list str) (reg : list (str * addr))
           (heap : list obj) : GM (list (str * addr) * list obj) :=
    match ids with
    | [] => gret (reg, heap)
    | id :: ids' =>
        let step := go_allocate c ref ids' (upsert id (length heap) reg)
                      (heap ++ [GObj (c_name c) [] (zero_fields (c_props c))]) in
        match c_id_pattern c with
        | Some p =>
            if negb (g_match X p id)
            then gdo _ <- greport (gslash ref (go_key (c_plural c))) (GIdMismatch p id) tt;
                 go_allocate c ref ids' reg heap
            else step
        | None => step
        end
    end.

  (** The pre-allocation of all registries (1652-1703). *)
  Fixpoint go_preallocate (cs : list cls) (l : list (str * jval)) (ref : str) (R : gregistries)
           (heap : list obj) : GM (gregistries * list obj) :=
    match cs with
    | [] => gret (R, heap)
    | c :: cs' =>
        gdo (R', heap') <-
          match lookup (go_key (c_plural c)) l with
          | None => gret (R, heap)
          | Some (JObj m) =>
              gdo (reg, heap') <- go_allocate c ref
                (keys (order _ 1 (gslash ref (go_key (c_plural c))) m)) [] heap;
              gret (upsert (field (c_plural c)) reg R, heap')
          | Some v =>
              greport (gslash ref (go_key (c_plural c)))
                      (GExpectedType (s_ "a map[string]interface{}") (gtype_of v)) (R, heap)
          end;
        go_preallocate cs' l ref R' heap'
    end.

  Definition set_obj (a : addr) (i : obj) (heap : list obj) : list obj :=
    firstn a heap ++ i :: skipn (Datatypes.S a) heap.

  (** [for id, value := range ...Map] (1719-1733); [ClassFromJSONable] sets the ID
      after the check of the type (1561-1566).  The flag tells whether the loop was
      left by [break]. *)
  Fixpoint go_instances (c : cls) (R : gregistries) (reg : list (str * addr)) (ref : str)
           (l : list (str * jval)) (heap : list obj) : GM (list obj) :=
    match l with
    | [] => gret heap
    | (id, v) :: l' =>
        match lookup id reg with
        | None => gpanic PNilTarget
        | Some a =>
            match nth_error heap a with
            | None => gpanic PNilTarget
            | Some i =>
                gdo fields <- go_composite (c_props c) v (gmembers_of R v)
                  (gslash (gslash ref (go_key (c_plural c))) id) (o_fields i);
                let id' := match v with JObj _ => id | _ => o_id i end in
                let heap' := set_obj a (GObj (o_class i) id' fields) heap in
                fun es => if go_full es then Done (heap', es)
                          else go_instances c R reg ref l' heap' es
            end
        end
    end.

  (** 1713-1738.  [None]: returned early. *)
  Fixpoint go_registries (cs : list cls) (l : list (str * jval)) (ref : str) (R : gregistries)
           (heap : list obj) : GM (option (list obj)) :=
    match cs with
    | [] => gret (Some heap)
    | c :: cs' =>
        gdo heap' <-
          match lookup (go_key (c_plural c)) l with
          | Some (JObj m) =>
              go_instances c R
                (match lookup (field (c_plural c)) R with Some r => r | None => [] end) ref
                (order _ 2 (gslash ref (go_key (c_plural c))) m) heap
          | _ => gret heap
          end;
        fun es => if go_full es then Done (None, es) else go_registries cs' l ref R heap' es
    end.

  (** fromjsonable.py:1615-1740, [_PARSE_GRAPH_TPL].  The target is undefined if
      there are errors; [None] stands for the state after an early return. *)
  Definition go_graph_from (v : jval) (ref : str) : GM (option (gograph (g_time X))) :=
    fun es =>
    if negb (go_empty es) then Panic PNonEmptyErrors else
    match v with
    | JObj l =>
        (gdo (R, heap) <- go_preallocate (g_classes G) l ref [] [];
         fun es =>
         if (match g_classes G with [] => false | _ => true end) && negb (go_empty es)
         then Done (None, es)
         else
           (gdo r <- go_registries (g_classes G) l ref R heap;
            match r with
            | None => gret None
            | Some heap' =>
                gdo fields <- go_properties (g_props G) (gmembers_of R v) ref (zero_fields (g_props G));
                gret (Some (GoGraph fields R heap'))
            end) es) es
    | _ => greport ref (GExpectedType (s_ "a map[string]interface{}") (gtype_of v)) None es
    end.

  (** ** Serialization *)

  Inductive gserr := SPanic (p : panic) | SError (id got : str).
  Inductive sout (A : Type) := SOk (a : A) | SFail (e : gserr).
  Arguments SOk {A}. Arguments SFail {A}.
  Definition sbind {A B} (m : sout A) (f : A -> sout B) : sout B :=
    match m with SOk a => f a | SFail e => SFail e end.

  Definition gserializer := ty -> sout jval.

  Fixpoint go_ser_items (ss : list gserializer) (t : ty) : sout (list jval) :=
    match ss with
    | [] => SOk []
    | s :: ss' => sbind (s t) (fun x => sbind (go_ser_items ss' t) (fun xs => SOk (x :: xs)))
    end.

  (** tojsonable.py:209-219, the loop over a map.  Simplification: the order of
      the entries of the result is the one of the map (both are unordered). *)
  Fixpoint go_ser_entries (ss : list (str * gserializer)) (t : ty) : sout (list (str * jval)) :=
    match ss with
    | [] => SOk []
    | (k, s) :: ss' =>
        sbind (s t) (fun x => sbind (go_ser_entries ss' t) (fun xs => SOk ((k, x) :: xs)))
    end.

  Definition gattributes := list (str * (val * gserializer)).

  (** tojsonable.py:320-375, [_SERIALIZE_PROPERTY_TPL] and [_serialize_property].
      A field always exists (compiled). *)
  Definition go_ser_property (p : prop) (o : gattributes) (target : list (str * jval))
    : sout (list (str * jval)) :=
    match lookup (field (p_name p)) o with
    | None => SFail (SPanic PNilDereference)   (* does not compile *)
    | Some (v, s) =>
        match p_optional p, v with
        | true, GNil => SOk target
        | _, _ => sbind (s (p_type p)) (fun x => SOk (upsert (p_json p) x target))
        end
    end.

  Fixpoint go_ser_properties (ps : list prop) (o : gattributes) (target : list (str * jval))
    : sout (list (str * jval)) :=
    match ps with
    | [] => SOk target
    | p :: ps' => sbind (go_ser_property p o target) (fun target' => go_ser_properties ps' o target')
    end.

  (** tojsonable.py:252-317 [_serialize_value], 131-249 (dates, arrays, maps),
      378-435 [_serialize_class_or_embed].  A nil array or map is serialized as an
      empty one, a nil location as "UTC", a nil instance panics.  Values of other
      types do not compile. *)
  Fixpoint go_ser_value (heap : list obj) (v : val) : gserializer :=
    fun t =>
    let bad := SFail (SPanic PNilDereference) in
    match t with
    | TBool => match v with GBool b => SOk (JBool b) | _ => bad end
    | TInt _ => match v with GInt z => SOk (JInt z) | _ => bad end
    | TFloat _ => match v with GFloat f => SOk (JFloat f) | _ => bad end
    | TStr _ | TPath _ => match v with GStr s => SOk (JStr s) | _ => bad end
    | TDate f | TTime f | TDatetime f =>
        match v with
        | GTime x => SOk (JStr (match layout f with [] => [] | _ => g_time_format X (layout f) x end))
        | _ => bad
        end
    | TTimeZone => match v with GZone s => SOk (JStr s) | GNil => SOk (JStr (s_ "UTC")) | _ => bad end
    | TDuration => match v with GDuration d => SOk (JStr (go_dur_to d)) | _ => bad end
    | TArray t' _ _ =>
        match v with
        | GList l => sbind (go_ser_items (map (go_ser_value heap) l) t') (fun xs => SOk (JArr xs))
        | GNil => SOk (JArr [])
        | _ => bad
        end
    | TMap t' =>
        match v with
        | GMap l =>
            sbind (go_ser_entries (map (fun kv => (fst kv, go_ser_value heap (snd kv))) l) t')
                  (fun xs => SOk (JObj xs))
        | GNil => SOk (JObj [])
        | _ => bad
        end
    | TClass _ =>
        match v with
        | GRef a => match nth_error heap a with Some i => SOk (JStr (o_id i)) | None => bad end
        | _ => bad
        end
    | TEmbed n =>
        match find_embed G n, v with
        | Some e, GStruct fields =>
            sbind (go_ser_properties (e_props e)
                     (map (fun kv => (fst kv, (snd kv, go_ser_value heap (snd kv)))) fields) [])
                  (fun o => SOk (JObj o))
        | _, _ => bad
        end
    end.

  Definition gattributes_of (heap : list obj) (fields : list (str * val)) : gattributes :=
    map (fun kv => (fst kv, (snd kv, go_ser_value heap (snd kv)))) fields.

  (** tojsonable.py:378-435, an instance of a class *)
  Definition go_ser_instance (heap : list obj) (c : cls) (i : obj) : sout jval :=
    sbind (go_ser_properties (c_props c) (gattributes_of heap (o_fields i)) [])
          (fun o => SOk (JObj o)).

  (** tojsonable.py:485-503, the loop over the registry *)
  Fixpoint go_ser_registry (heap : list obj) (c : cls) (reg : list (str * addr))
    : sout (list (str * jval)) :=
    match reg with
    | [] => SOk []
    | (id, a) :: reg' =>
        match nth_error heap a with
        | None => SFail (SPanic PNilDereference)
        | Some i =>
            if negb (str_eqb id (o_id i)) then SFail (SError id (o_id i))
            else sbind (go_ser_instance heap c i) (fun x =>
                 sbind (go_ser_registry heap c reg') (fun xs => SOk ((id, x) :: xs)))
        end
    end.

  (** tojsonable.py:476-509 *)
  Fixpoint go_ser_registries (heap : list obj) (cs : list cls) (R : gregistries)
           (target : list (str * jval)) : sout (list (str * jval)) :=
    match cs with
    | [] => SOk target
    | c :: cs' =>
        match (match lookup (field (c_plural c)) R with Some r => r | None => [] end) with
        | [] => go_ser_registries heap cs' R target
        | reg =>
            sbind (go_ser_registry heap c reg) (fun o =>
              go_ser_registries heap cs' R (upsert (go_key (c_plural c)) (JObj o) target))
        end
    end.

  (** tojsonable.py:438-513, [_SERIALIZE_GRAPH_TPL] *)
  Definition go_ser_graph (gg : gograph (g_time X)) : sout jval :=
    sbind (go_ser_properties (g_props G) (gattributes_of (gg_heap gg) (gg_fields gg)) []) (fun target =>
    sbind (go_ser_registries (gg_heap gg) (g_classes G) (gg_registries gg) target) (fun target' =>
    SOk (JObj target'))).
End Go.
Arguments SOk {A}. Arguments SFail {A}.
