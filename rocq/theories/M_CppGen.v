(** Denotation of the C++ code generated by mapry/cpp/generate/jsoncpp_impl.py
    ("jsoncpp_impl.py" below) and mapry/cpp/generate/types_header.py.

    One function per template: it takes what the template is instantiated with
    and does what the instantiated code does.  An exception is a value
    ([CThrown]).  Simplifications: messages are kept as constructors instead of
    texts; targets are freshly constructed; the stack depth and the memory are
    unbounded, except in [tm_to_string]; templates whose instances do not compile
    (date.h with optional dates, see DESIGN.md) are treated like the others. *)
From Verif Require Import Base M_Naming M_Errors M_Dec M_Schema M_Duration M_Num M_CppTime.
From Coq Require Import String List Arith NArith ZArith Bool Floats.SpecFloat.
Import ListNotations.

(** ** External functions *)

Inductive tkind := KDate | KTime | KDatetime.

Record cext := CExt {
  cx_date_h : bool;       (** [cpp.datetime_library]: "date.h" or else "ctime" *)
  cx_time : Type;         (** [struct tm] or the classes of date.h *)
  cx_match : str -> str -> bool;                         (** [std::regex_match(s, std::regex(p))] *)
  cx_strptime : str -> str -> option (cx_time * str);    (** [strptime], format and text: value and remaining text *)
  cx_strftime : str -> cx_time -> str;                   (** the expansion of the format *)
  cx_date_parse : tkind -> str -> str -> option (cx_time * str);  (** [iss >> date::parse]: value and remaining text *)
  cx_date_format : tkind -> str -> cx_time -> str;       (** [date::format] *)
  cx_locate : str -> option str;      (** [date::locate_zone], as its [name()]; [None]: std::runtime_error *)
  cx_flag : str -> bool;              (** the uninitialized flag in [duration_from_string] *)
  cx_max_size : N                     (** the largest size of a std::string *)
}.

Definition addr := nat.

(** The values of the generated types (mapry/cpp/generate/__init__.py:28-118).  A
    set optional is represented by its value, an unset one and a null pointer by
    [CNil]; [CZero] stands for any other value before it is assigned.  Paths are
    texts.  Class instances are addresses of the heap. *)
Inductive cval (T : Type) :=
| CBool (b : bool)
| CInt (z : Z)
| CFloat (f : spec_float)
| CStr (s : str)
| CTime (t : T)
| CZone (s : str)
| CDuration (ns : Z)
| CList (l : list (cval T))
| CMap (l : list (str * cval T))
| CRef (a : addr)
| CStruct (fields : list (str * cval T))
| CNil
| CZero.
Arguments CBool {T}. Arguments CInt {T}. Arguments CFloat {T}. Arguments CStr {T}.
Arguments CTime {T}. Arguments CZone {T}. Arguments CDuration {T}. Arguments CList {T}.
Arguments CMap {T}. Arguments CRef {T}. Arguments CStruct {T}. Arguments CNil {T}.
Arguments CZero {T}.

(** An instance of a class: types_header.py:296-324. *)
Record cobj (T : Type) := CObj { i_class : str; i_id : str; i_fields : list (str * cval T) }.
Arguments CObj {T}. Arguments i_class {T}. Arguments i_id {T}. Arguments i_fields {T}.

Definition cregistries := list (str * list (str * addr)).

(** types_header.py:327-365 *)
Record cgraph (T : Type) := CGraph {
  cg_fields : list (str * cval T);
  cg_registries : cregistries;
  cg_heap : list (cobj T) }.
Arguments CGraph {T}. Arguments cg_fields {T}. Arguments cg_registries {T}. Arguments cg_heap {T}.

(** ** Errors *)

(** [Json::ValueType], jsoncpp_impl.py:445-477. *)
Inductive ctype := CTNull | CTInt | CTUint | CTReal | CTString | CTBool | CTArray | CTObject.
Definition ctype_of (v : jval) : ctype :=
  match v with
  | JNull => CTNull | JBool _ => CTBool
  | JInt z => if (z <? 2 ^ 63)%Z then CTInt else CTUint
  | JFloat _ => CTReal | JStr _ => CTString | JArr _ => CTArray | JObj _ => CTObject
  end.

Inductive cmsg :=
| CExpectedType (what : str) (got : ctype)
| CExpectedBound (op : str) (bound : Z)
| CExpectedMatch (pattern got : str)
| CExpectedFormat (format got : str)
| CExpectedZone (got : str)
| CInvalidDuration (got : str)
| CMinimumSize (size : Z) (got : nat)
| CMaximumSize (size : Z) (got : nat)
| CMissingReference (class_name id : str)
| CMissingProperty (json : str)
| CIdMismatch (pattern id : str).

Record cerr := CErr { cerr_ref : str; cerr_msg : cmsg }.
Definition cerrs := cpp_errors cerr.
Definition cadd (ref : str) (m : cmsg) (es : cerrs) : cerrs := cpp_add es (CErr ref m).

Inductive cexn :=
| XNonEmptyErrors    (** std::invalid_argument of the parser *)
| XOutOfRange        (** std::out_of_range of [std::map::at] *)
| XDuration          (** std::out_of_range of [std::stod] and [std::stol] *)
| XDurationOverflow  (** std::overflow_error of [duration_to_string] *)
| XLength            (** std::length_error of [tm_to_string] *)
| XIdMismatch (id got : str)   (** std::invalid_argument of the serializer *)
| XUndefined.        (** undefined behaviour: a null pointer was dereferenced *)

Inductive cout (A : Type) := CDone (a : A) | CThrown (e : cexn).
Arguments CDone {A}. Arguments CThrown {A}.

(** State (the error container) and exceptions. *)
Definition CM (A : Type) := cerrs -> cout (A * cerrs).
Definition cret {A} (a : A) : CM A := fun es => CDone (a, es).
Definition cthrow {A} (e : cexn) : CM A := fun _ => CThrown e.
Definition cbind {A B} (m : CM A) (f : A -> CM B) : CM B :=
  fun es => match m es with CDone (a, es') => f a es' | CThrown e => CThrown e end.
Definition creport {A} (ref : str) (m : cmsg) (a : A) : CM A := fun es => CDone (a, cadd ref m es).
Notation "'cdo' x <- r ; f" := (cbind r (fun x => f)) (at level 60, x pattern, right associativity).

Definition cslash (ref part : str) : str := ref ++ s_ "/" ++ part.

Definition cop_min (b : bounds) : str := if b_exmin b then s_ ">" else s_ ">=".
Definition cop_max (b : bounds) : str := if b_exmax b then s_ "<" else s_ "<=".

(** ** Names *)

(** mapry/cpp/naming.py:10-26, [as_field]; the generator raises for an empty name.
    The types header declares the fields of properties under [prop.name]
    (types_header.py:260-262). *)
Definition cfield (name : str) : str := lower name.
(** The key of a registry (mapry/naming.py:94-108, [json_plural]). *)
Definition cpp_key (plural : str) : str :=
  match json_plural plural with Ok k => k | Raise _ => [] end.

(** [s.c_str()] as a C string. *)
Fixpoint c_str (s : str) : str :=
  match s with [] => [] | c :: s' => if (c =? 0)%N then [] else c :: c_str s' end.

(** [Json::Value::isInt64] and [asInt64].  A [JInt] stands for an [intValue] or a
    [uintValue]; numbers beyond 64 bits do not occur in a [Json::Value]. *)
Definition as_int64 (v : jval) : option Z :=
  match v with
  | JInt z => if (- 2 ^ 63 <=? z)%Z && (z <? 2 ^ 63)%Z then Some z else None
  | JFloat f =>
      if is_trunc f && over false (cmp_float_Z f (- 2 ^ 63)) && under true (cmp_float_Z f (2 ^ 63))
      then Some (trunc_Z f) else None
  | _ => None
  end.

(** [Json::Value::isDouble] and [asDouble] *)
Definition as_double (v : jval) : option spec_float :=
  match v with
  | JInt z => float_of_Z z
  | JFloat f => Some f
  | _ => None
  end.

Section Cpp.
  Variable X : cext.
  Variable G : graph.
  (** The order in which an object is visited (jsoncpp sorts the keys): [order loop
      ref m], for the loop number [loop] of the template at the reference [ref]. *)
  Variable order : forall A : Type, nat -> str -> list (str * A) -> list (str * A).

  Notation val := (cval (cx_time X)).
  Notation obj := (cobj (cx_time X)).

  (** The bounds of [_PARSE_INTEGER_TPL] (jsoncpp_impl.py:573-619) and
      [_PARSE_FLOAT_TPL] (672-717), the same up to the comparison [cmp]. *)
  Definition ccheck_bounds (b : bounds) (cmp : Z -> option comparison) (x : val) (ref : str) : CM val :=
    match b_min b, b_max b with
    | None, None => cret x
    | _, _ =>
        cdo ok <- match b_min b with
                  | Some m => if negb (over (b_exmin b) (cmp m))
                              then creport ref (CExpectedBound (cop_min b) m) false else cret true
                  | None => cret true
                  end;
        cdo ok' <- match b_max b with
                   | Some m => if negb (under (b_exmax b) (cmp m))
                               then creport ref (CExpectedBound (cop_max b) m) false else cret ok
                   | None => cret ok
                   end;
        cret (if ok' then x else CZero)
    end.

  (** jsoncpp_impl.py:499-523, [_PARSE_BOOLEAN_TPL] *)
  Definition cpp_boolean (v : jval) (ref : str) : CM val :=
    match v with
    | JBool b => cret (CBool b)
    | _ => creport ref (CExpectedType (s_ "a bool") (ctype_of v)) CZero
    end.

  (** jsoncpp_impl.py:550-621, [_PARSE_INTEGER_TPL] *)
  Definition cpp_integer (b : bounds) (v : jval) (ref : str) : CM val :=
    match as_int64 v with
    | Some z => ccheck_bounds b (fun m => Some (Z.compare z m)) (CInt z) ref
    | None => creport ref (CExpectedType (s_ "an int64") (ctype_of v)) CZero
    end.

  (** jsoncpp_impl.py:649-718, [_PARSE_FLOAT_TPL] *)
  Definition cpp_float (b : bounds) (v : jval) (ref : str) : CM val :=
    match as_double v with
    | Some f => ccheck_bounds b (float_cmp f) (CFloat f) ref
    | None => creport ref (CExpectedType (s_ "a double") (ctype_of v)) CZero
    end.

  (** jsoncpp_impl.py:747-797, [_PARSE_STRING_TPL], and 826-889, [_PARSE_PATH_TPL];
      [std::filesystem::path(s).string()] is [s] on POSIX. *)
  Definition cpp_string (pattern : option str) (v : jval) (ref : str) : CM val :=
    match v with
    | JStr s =>
        match pattern with
        | None => cret (CStr s)
        | Some p => if negb (cx_match X p s) then creport ref (CExpectedMatch p s) CZero
                    else cret (CStr s)
        end
    | _ => creport ref (CExpectedType (s_ "a string") (ctype_of v)) CZero
    end.

  (** jsoncpp_impl.py:920-965, [_PARSE_CTIME_TPL]; 967-1010, [_PARSE_DATE_TPL];
      1091-1138, [_PARSE_TIME_OF_DAY_TPL]; selected in 1013-1088, 1141-1178.
      date::parse sets failbit unless the text starts with the format. *)
  Definition cpp_date_time (k : tkind) (format : str) (v : jval) (ref : str) : CM val :=
    match v with
    | JStr s =>
        if cx_date_h X then
          match cx_date_parse X k format s with
          | Some (t, _) => cret (CTime t)
          | None => creport ref (CExpectedFormat format s) CZero
          end
        else
          match cx_strptime X format (c_str s) with
          | Some (t, []) => cret (CTime t)
          | _ => creport ref (CExpectedFormat format s) CZero
          end
    | _ => creport ref (CExpectedType (s_ "a string") (ctype_of v)) CZero
    end.

  (** jsoncpp_impl.py:1181-1204, [_PARSE_TIME_ZONE_AS_STR_TPL], and 1207-1245,
      [_PARSE_TIME_ZONE_TPL] *)
  Definition cpp_time_zone (v : jval) (ref : str) : CM val :=
    match v with
    | JStr s =>
        if cx_date_h X then
          match cx_locate X s with
          | Some z => cret (CZone z)
          | None => creport ref (CExpectedZone s) CNil
          end
        else cret (CZone s)
    | _ => creport ref (CExpectedType (s_ "a string") (ctype_of v)) CNil
    end.

  (** jsoncpp_impl.py:1287-1328, [_PARSE_DURATION_TPL] *)
  Definition cpp_duration (v : jval) (ref : str) : CM val :=
    match v with
    | JStr s =>
        match cpp_dur_from (cx_flag X s) s with
        | CppOk d => cret (CDuration d)
        | CppError => creport ref (CInvalidDuration s) CZero
        | CppThrow => cthrow XDuration
        end
    | _ => creport ref (CExpectedType (s_ "a string") (ctype_of v)) CZero
    end.

  Definition cparser := ty -> str -> CM val.

  (** The loop of [_PARSE_ARRAY_TPL], jsoncpp_impl.py:1368-1377; the items after a
      [break] keep the values of [resize]. *)
  Fixpoint cpp_items (ps : list cparser) (t : ty) (ref : str) (i : nat) : CM (list val) :=
    match ps with
    | [] => cret []
    | p :: ps' =>
        cdo x <- p t (cslash ref (dec_nat i));
        fun es => if cpp_full es then CDone (x :: map (fun _ => CZero) ps', es)
                  else (cdo xs <- cpp_items ps' t ref (S i); cret (x :: xs)) es
    end.

  (** jsoncpp_impl.py:1357-1422, [_PARSE_ARRAY_TPL], for an array.  Sizes of a
      schema are not negative (mapry/schemas.py:485-494). *)
  Definition cpp_array (t : ty) (mn mx : option Z) (ps : list cparser) (ref : str) : CM val :=
    let size := length ps in
    let too_small := match mn with Some m => (Z.of_nat size <? m)%Z | None => false end in
    let too_big := match mx with Some m => (m <? Z.of_nat size)%Z | None => false end in
    if too_small then creport ref (CMinimumSize (match mn with Some m => m | None => 0%Z end) size) CZero
    else if too_big then creport ref (CMaximumSize (match mx with Some m => m | None => 0%Z end) size) CZero
    else cdo l <- cpp_items ps t ref 0; cret (CList l).

  (** The loop of [_PARSE_MAP_TPL], jsoncpp_impl.py:1492-1500.  Simplification: a
      key is set also if its value was rejected (the target is undefined then). *)
  Fixpoint cpp_entries (ps : list (str * cparser)) (t : ty) (ref : str) (target : list (str * val))
    : CM (list (str * val)) :=
    match ps with
    | [] => cret target
    | (k, p) :: ps' =>
        cdo x <- p t (cslash ref k);
        let target' := upsert k x target in
        fun es => if cpp_full es then CDone (target', es) else cpp_entries ps' t ref target' es
    end.

  (** jsoncpp_impl.py:1544-1583, [_PARSE_CLASS_REF_TPL] *)
  Definition cpp_reference (R : cregistries) (class_name : str) (v : jval) (ref : str) : CM val :=
    match v with
    | JStr s =>
        match find_class G class_name with
        | None => cthrow XUndefined   (* excluded by schema parsing *)
        | Some c =>
            match lookup s (match lookup (cfield (c_plural c)) R with Some r => r | None => [] end) with
            | None => creport ref (CMissingReference class_name s) CNil
            | Some a => cret (CRef a)
            end
        end
    | _ => creport ref (CExpectedType (s_ "a string") (ctype_of v)) CNil
    end.

  (** The fields of a fresh target, types_header.py:142-266. *)
  Definition default_field (p : prop) : val :=
    if p_optional p then CNil
    else match p_type p with
         | TClass _ => CNil
         | TTimeZone => if cx_date_h X then CNil else CZero
         | _ => CZero
         end.
  Definition default_fields (ps : list prop) : list (str * val) :=
    map (fun p => (p_name p, default_field p)) ps.

  (** The members of a JSON object with the parsers of their values. *)
  Definition cmembers := list (str * cparser).

  (** jsoncpp_impl.py:1826-1847, [_PARSE_PROPERTY_TPL], into the fields of the
      target. *)
  Definition cpp_property (p : prop) (o : cmembers) (ref : str) (fields : list (str * val))
    : CM (list (str * val)) :=
    match lookup (p_json p) o with
    | None =>
        if p_optional p then cret fields
        else creport ref (CMissingProperty (p_json p)) fields
    | Some parse =>
        cdo x <- parse (p_type p) (cslash ref (p_json p));
        cret (upsert (cfield (p_name p)) x fields)
    end.

  (** The properties of a composite, jsoncpp_impl.py:1937-1943, and of the graph,
      2138-2144: returns early when the errors are full. *)
  Fixpoint cpp_properties (ps : list prop) (o : cmembers) (ref : str) (fields : list (str * val))
    : CM (list (str * val)) :=
    match ps with
    | [] => cret fields
    | p :: ps' =>
        cdo fields' <- cpp_property p o ref fields;
        fun es => if cpp_full es then CDone (fields', es) else cpp_properties ps' o ref fields' es
    end.

  (** jsoncpp_impl.py:1912-1944, [_PARSE_COMPOSITE_TPL] *)
  Definition cpp_composite (ps : list prop) (v : jval) (o : cmembers) (ref : str)
             (fields : list (str * val)) : CM (list (str * val)) :=
    match v with
    | JObj _ => cpp_properties ps o ref fields
    | _ => creport ref (CExpectedType (s_ "an object") (ctype_of v)) fields
    end.

  (** jsoncpp_impl.py:1673-1823, [_parse_value] *)
  Fixpoint cpp_value (R : cregistries) (v : jval) : cparser :=
    fun t ref =>
    match t with
    | TBool => cpp_boolean v ref
    | TInt b => cpp_integer b v ref
    | TFloat b => cpp_float b v ref
    | TStr p | TPath p => cpp_string p v ref
    | TDate f => cpp_date_time KDate f v ref
    | TTime f => cpp_date_time KTime f v ref
    | TDatetime f => cpp_date_time KDatetime f v ref
    | TTimeZone => cpp_time_zone v ref
    | TDuration => cpp_duration v ref
    | TArray t' mn mx =>
        match v with
        | JArr l => cpp_array t' mn mx (map (cpp_value R) l) ref
        | _ => creport ref (CExpectedType (s_ "an array") (ctype_of v)) CZero
        end
    | TMap t' =>
        match v with
        | JObj l =>
            cdo d <- cpp_entries (order _ 0 ref (map (fun kv => (fst kv, cpp_value R (snd kv))) l)) t' ref [];
            cret (CMap d)
        | _ => creport ref (CExpectedType (s_ "an object") (ctype_of v)) CZero
        end
    | TClass n => cpp_reference R n v ref
    | TEmbed n =>
        (* jsoncpp_impl.py:1615-1632, [_PARSE_EMBED_TPL] *)
        match find_embed G n with
        | None => cthrow XUndefined   (* excluded by schema parsing *)
        | Some e =>
            cdo fields <- cpp_composite (e_props e) v
              (match v with
               | JObj l => map (fun kv => (fst kv, cpp_value R (snd kv))) l
               | _ => []
               end) ref (default_fields (e_props e));
            cret (CStruct fields)
        end
    end.

  Definition cmembers_of (R : cregistries) (v : jval) : cmembers :=
    match v with
    | JObj l => map (fun kv => (fst kv, cpp_value R (snd kv))) l
    | _ => []
    end.

  (** ** The graph, jsoncpp_impl.py:1989-2145 *)

  (** The loop over [obj] in the pre-allocation (2045-2078); [break] leaves the loop
      only. *)
  Fixpoint cpp_allocate (c : cls) (ref : str) (ids : list str) (reg : list (str * addr))
           (heap : list obj) : CM (list (str * addr) * list obj) :=
    match ids with
    | [] => cret (reg, heap)
    | id :: ids' =>
        let step := cpp_allocate c ref ids' (upsert id (length heap) reg)
                      (heap ++ [CObj (c_name c) id (default_fields (c_props c))]) in
        match c_id_pattern c with
        | Some p =>
            if negb (cx_match X p id)
            then cdo _ <- creport (cslash ref (cpp_key (c_plural c))) (CIdMismatch p id) tt;
                 fun es => if cpp_full es then CDone ((reg, heap), es)
                           else cpp_allocate c ref ids' reg heap es
            else step
        | None => step
        end
    end.

  (** The pre-allocation of all registries (2017-2081). *)
  Fixpoint cpp_preallocate (cs : list cls) (l : list (str * jval)) (ref : str) (R : cregistries)
           (heap : list obj) : CM (cregistries * list obj) :=
    match cs with
    | [] => cret (R, heap)
    | c :: cs' =>
        cdo (R', heap') <-
          match lookup (cpp_key (c_plural c)) l with
          | None => cret (R, heap)
          | Some (JObj m) =>
              cdo (reg, heap') <- cpp_allocate c ref
                (keys (order _ 1 (cslash ref (cpp_key (c_plural c))) m))
                (match lookup (cfield (c_plural c)) R with Some r => r | None => [] end) heap;
              cret (upsert (cfield (c_plural c)) reg R, heap')
          | Some v =>
              creport (cslash ref (cpp_key (c_plural c)))
                      (CExpectedType (s_ "an object") (ctype_of v)) (R, heap)
          end;
        cpp_preallocate cs' l ref R' heap'
    end.

  Definition cset_obj (a : addr) (i : obj) (heap : list obj) : list obj :=
    firstn a heap ++ i :: skipn (Datatypes.S a) heap.

  (** The loop over [obj] (2110-2132); [std::map::at] throws. *)
  Fixpoint cpp_instances (c : cls) (R : cregistries) (reg : list (str * addr)) (ref : str)
           (l : list (str * jval)) (heap : list obj) : CM (list obj) :=
    match l with
    | [] => cret heap
    | (id, v) :: l' =>
        match lookup id reg with
        | None => cthrow XOutOfRange
        | Some a =>
            match nth_error heap a with
            | None => cthrow XUndefined
            | Some i =>
                cdo fields <- cpp_composite (c_props c) v (cmembers_of R v)
                  (cslash (cslash ref (cpp_key (c_plural c))) id) (i_fields i);
                let heap' := cset_obj a (CObj (i_class i) (i_id i) fields) heap in
                fun es => if cpp_full es then CDone (heap', es)
                          else cpp_instances c R reg ref l' heap' es
            end
        end
    end.

  (** What the iterators of [Json::Value] visit: the items of an array have empty
      names, other values are empty. *)
  Definition iterated (ref : str) (v : jval) : list (str * jval) :=
    match v with
    | JObj m => order _ 2 ref m
    | JArr l => map (pair []) l
    | _ => []
    end.

  (** 2094-2137.  [None]: returned early. *)
  Fixpoint cpp_registries (cs : list cls) (l : list (str * jval)) (ref : str) (R : cregistries)
           (heap : list obj) : CM (option (list obj)) :=
    match cs with
    | [] => cret (Some heap)
    | c :: cs' =>
        cdo heap' <-
          match lookup (cpp_key (c_plural c)) l with
          | Some v =>
              cpp_instances c R
                (match lookup (cfield (c_plural c)) R with Some r => r | None => [] end) ref
                (iterated (cslash ref (cpp_key (c_plural c))) v) heap
          | None => cret heap
          end;
        fun es => if cpp_full es then CDone (None, es) else cpp_registries cs' l ref R heap' es
    end.

  (** jsoncpp_impl.py:1989-2145, [_PARSE_GRAPH_TPL], after the check of the null
      argument.  The target is undefined if there are errors; [None] stands for the
      state after an early return. *)
  Definition cpp_graph_from (v : jval) (ref : str) : CM (option (cgraph (cx_time X))) :=
    fun es =>
    if negb (cpp_empty es) then CThrown XNonEmptyErrors else
    match v with
    | JObj l =>
        (cdo (R, heap) <- cpp_preallocate (g_classes G) l ref [] [];
         fun es =>
         if (match g_classes G with [] => false | _ => true end) && negb (cpp_empty es)
         then CDone (None, es)
         else
           (cdo r <- cpp_registries (g_classes G) l ref R heap;
            match r with
            | None => cret None
            | Some heap' =>
                cdo fields <- cpp_properties (g_props G) (cmembers_of R v) ref (default_fields (g_props G));
                cret (Some (CGraph fields R heap'))
            end) es) es
    | _ => creport ref (CExpectedType (s_ "an object") (ctype_of v)) None es
    end.

  (** ** Serialization *)

  Definition csbind {A B} (m : cout A) (f : A -> cout B) : cout B :=
    match m with CDone a => f a | CThrown e => CThrown e end.

  Definition cserializer := ty -> cout jval.

  (** jsoncpp_impl.py:2438-2448, [_SERIALIZE_ARRAY_TPL], the loop *)
  Fixpoint cpp_ser_items (ss : list cserializer) (t : ty) : cout (list jval) :=
    match ss with
    | [] => CDone []
    | s :: ss' => csbind (s t) (fun x => csbind (cpp_ser_items ss' t) (fun xs => CDone (x :: xs)))
    end.

  (** jsoncpp_impl.py:2483-2492, [_SERIALIZE_MAP_TPL], the loop *)
  Fixpoint cpp_ser_entries (ss : list (str * cserializer)) (t : ty) : cout (list (str * jval)) :=
    match ss with
    | [] => CDone []
    | (k, s) :: ss' =>
        csbind (s t) (fun x => csbind (cpp_ser_entries ss' t) (fun xs => CDone ((k, x) :: xs)))
    end.

  Definition cattributes := list (str * (val * cserializer)).

  (** jsoncpp_impl.py:2600-2647, [_serialize_property].  A field always exists
      (compiled). *)
  Definition cpp_ser_property (p : prop) (o : cattributes) (target : list (str * jval))
    : cout (list (str * jval)) :=
    match lookup (p_name p) o with
    | None => CThrown XUndefined   (* does not compile *)
    | Some (v, s) =>
        match p_optional p, v with
        | true, CNil => CDone target
        | _, _ => csbind (s (p_type p)) (fun x => CDone (upsert (p_json p) x target))
        end
    end.

  Fixpoint cpp_ser_properties (ps : list prop) (o : cattributes) (target : list (str * jval))
    : cout (list (str * jval)) :=
    match ps with
    | [] => CDone target
    | p :: ps' => csbind (cpp_ser_property p o target) (fun target' => cpp_ser_properties ps' o target')
    end.

  (** jsoncpp_impl.py:2650-2668, [_SERIALIZE_CLASS_OR_EMBED_TPL]: a [Json::Value]
      without members is null unless it was made an object. *)
  Definition cpp_composite_value (ps : list prop) (target : list (str * jval)) : jval :=
    match ps with
    | [] => JObj []
    | _ => match target with [] => JNull | _ => JObj target end
    end.

  (** jsoncpp_impl.py:2321-2413: dates and times *)
  Definition cpp_ser_time (k : tkind) (format : str) (t : cx_time X) : cout jval :=
    match format with
    | [] => CDone (JStr [])
    | _ =>
        if cx_date_h X then CDone (JStr (cx_date_format X k format t))
        else match tm_to_string (cx_max_size X) format (cx_strftime X format t) with
             | TmText s => CDone (JStr s)
             | _ => CThrown XLength
             end
    end.

  (** jsoncpp_impl.py:2527-2597, [_serialize_value].  Values of other types do not
      compile. *)
  Fixpoint cpp_ser_value (heap : list obj) (v : val) : cserializer :=
    fun t =>
    let bad := CThrown XUndefined in
    match t with
    | TBool => match v with CBool b => CDone (JBool b) | _ => bad end
    | TInt _ => match v with CInt z => CDone (JInt z) | _ => bad end
    | TFloat _ => match v with CFloat f => CDone (JFloat f) | _ => bad end
    | TStr _ | TPath _ => match v with CStr s => CDone (JStr s) | _ => bad end
    | TDate f => match v with CTime x => cpp_ser_time KDate f x | _ => bad end
    | TTime f => match v with CTime x => cpp_ser_time KTime f x | _ => bad end
    | TDatetime f => match v with CTime x => cpp_ser_time KDatetime f x | _ => bad end
    | TTimeZone => match v with CZone s => CDone (JStr s) | _ => bad end
    | TDuration =>
        match v with
        | CDuration d =>
            match cpp_dur_to d with CppOk s => CDone (JStr s) | _ => CThrown XDurationOverflow end
        | _ => bad
        end
    | TArray t' _ _ =>
        match v with
        | CList l => csbind (cpp_ser_items (map (cpp_ser_value heap) l) t') (fun xs => CDone (JArr xs))
        | _ => bad
        end
    | TMap t' =>
        match v with
        | CMap l =>
            csbind (cpp_ser_entries (map (fun kv => (fst kv, cpp_ser_value heap (snd kv))) l) t')
                   (fun xs => CDone (JObj xs))
        | _ => bad
        end
    | TClass _ =>
        match v with
        | CRef a => match nth_error heap a with Some i => CDone (JStr (i_id i)) | None => bad end
        | _ => bad
        end
    | TEmbed n =>
        match find_embed G n, v with
        | Some e, CStruct fields =>
            csbind (cpp_ser_properties (e_props e)
                      (map (fun kv => (fst kv, (snd kv, cpp_ser_value heap (snd kv)))) fields) [])
                   (fun o => CDone (cpp_composite_value (e_props e) o))
        | _, _ => bad
        end
    end.

  Definition cattributes_of (heap : list obj) (fields : list (str * val)) : cattributes :=
    map (fun kv => (fst kv, (snd kv, cpp_ser_value heap (snd kv)))) fields.

  (** jsoncpp_impl.py:2650-2700, an instance of a class *)
  Definition cpp_ser_instance (heap : list obj) (c : cls) (i : obj) : cout jval :=
    csbind (cpp_ser_properties (c_props c) (cattributes_of heap (i_fields i)) [])
           (fun o => CDone (cpp_composite_value (c_props c) o)).

  (** jsoncpp_impl.py:2718-2744, the loop over the registry *)
  Fixpoint cpp_ser_registry (heap : list obj) (c : cls) (reg : list (str * addr))
    : cout (list (str * jval)) :=
    match reg with
    | [] => CDone []
    | (id, a) :: reg' =>
        match nth_error heap a with
        | None => CThrown XUndefined
        | Some i =>
            if negb (str_eqb id (i_id i)) then CThrown (XIdMismatch id (i_id i))
            else csbind (cpp_ser_instance heap c i) (fun x =>
                 csbind (cpp_ser_registry heap c reg') (fun xs => CDone ((id, x) :: xs)))
        end
    end.

  (** jsoncpp_impl.py:2705-2708, 2717: the variables of the result and of a registry.
      The latter is declared in an inner block, and hides the former if the names
      are the same. *)
  Definition as_value (name : str) : str := lower name ++ s_ "_as_value".
  Definition hides_result (c : cls) : bool := str_eqb (as_value (c_plural c)) (as_value (g_name G)).

  (** jsoncpp_impl.py:2714-2748; if the result is hidden, the registry is assigned
      to a member of itself and forgotten at the end of the block. *)
  Fixpoint cpp_ser_registries (heap : list obj) (cs : list cls) (R : cregistries)
           (target : list (str * jval)) : cout (list (str * jval)) :=
    match cs with
    | [] => CDone target
    | c :: cs' =>
        match (match lookup (cfield (c_plural c)) R with Some r => r | None => [] end) with
        | [] => cpp_ser_registries heap cs' R target
        | reg =>
            csbind (cpp_ser_registry heap c reg) (fun o =>
              cpp_ser_registries heap cs' R
                (if hides_result c then target else upsert (cpp_key (c_plural c)) (JObj o) target))
        end
    end.

  (** jsoncpp_impl.py:2703-2754, [_SERIALIZE_GRAPH_TPL] *)
  Definition cpp_ser_graph (g : cgraph (cx_time X)) : cout jval :=
    csbind (cpp_ser_properties (g_props G) (cattributes_of (cg_heap g) (cg_fields g)) []) (fun target =>
    csbind (cpp_ser_registries (cg_heap g) (g_classes G) (cg_registries g) target) (fun target' =>
    CDone (match g_props G, g_classes G, target' with
           | [], [], _ => JObj []
           | _, _, [] => JNull
           | _, _, _ => JObj target'
           end))).
End Cpp.
