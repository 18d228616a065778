(** The definitions of the composite types in the generated C++ header and Go source:
    mapry/cpp/generate/types_header.py and mapry/go/generate/types.py.

    A composite is denoted by its name in the schema; that different names have
    different identifiers is the matter of C37 and C38. *)
From Coq Require Import String List Arith NArith ZArith Bool.
From Verif Require Import Base M_Naming M_Schema.
From Verif Require M_GoGen.
Import ListNotations.
Open Scope list_scope.

(** * C++ *)

(** The types in the header, mapry/cpp/generate/__init__.py:28-118: [CNamed] is a type
    of the header itself, [COther] any other type which takes no parameters. *)
Inductive cpp_type :=
| CNamed (n : str)
| COther (text : str)
| CPointer (t : cpp_type)
| CVector (t : cpp_type)
| CMapTo (t : cpp_type)
| COptional (t : cpp_type).

(** The text of the types without parameters is left out. *)
Fixpoint cpp_type_repr (t : ty) : cpp_type :=
  match t with
  | TBool => COther (s_ "bool")
  | TInt _ => COther (s_ "int64_t")
  | TFloat _ => COther (s_ "double")
  | TStr _ => COther (s_ "std::string")
  | TPath _ => COther (s_ "path")
  | TDate _ => COther (s_ "date")
  | TTime _ => COther (s_ "time")
  | TDatetime _ => COther (s_ "datetime")
  | TTimeZone => COther (s_ "time_zone")
  | TDuration => COther (s_ "std::chrono::nanoseconds")
  | TArray values _ _ => CVector (cpp_type_repr values)
  | TMap values => CMapTo (cpp_type_repr values)
  | TClass n => CPointer (CNamed n)
  | TEmbed n => CNamed n
  end.

(** types_header.py:225-269 [_property_fields]: the types of the fields *)
Definition cpp_fields (ps : list prop) : list cpp_type :=
  map (fun p => if p_optional p then COptional (cpp_type_repr (p_type p)) else cpp_type_repr (p_type p)) ps.

(** What the header does, in order. *)
Inductive header_item :=
| Declares (n : str)                            (** [struct n;] *)
| Defines (n : str) (fields : list cpp_type).   (** [struct n { ... };] *)

(** types_header.py:111-140 [_forward_declarations] and 368-411 [generate].  The
    registries, maps of unique pointers, are left out. *)
Definition header (g : graph) : list header_item :=
  Declares (g_name g) :: map (fun c => Declares (c_name c)) (g_classes g) ++
  map (fun e => Declares (e_name e)) (g_embeds g) ++
  map (fun e => Defines (e_name e) (cpp_fields (e_props e))) (g_embeds g) ++
  map (fun c => Defines (c_name c) (cpp_fields (c_props c))) (g_classes g) ++
  [Defines (g_name g) (cpp_fields (g_props g))].

(** * Go *)

Inductive go_type :=
| GNamed (n : str)
| GOther (text : str)
| GPointer (t : go_type)
| GSlice (t : go_type)
| GMapTo (t : go_type).

(** mapry/go/generate/__init__.py:32-87 *)
Fixpoint go_type_repr (t : ty) : go_type :=
  match t with
  | TBool => GOther (s_ "bool")
  | TInt _ => GOther (s_ "int64")
  | TFloat _ => GOther (s_ "float64")
  | TStr _ | TPath _ => GOther (s_ "string")
  | TDate _ | TTime _ | TDatetime _ => GOther (s_ "time.Time")
  | TTimeZone => GPointer (GOther (s_ "time.Location"))
  | TDuration => GOther (s_ "time.Duration")
  | TArray values _ _ => GSlice (go_type_repr values)
  | TMap values => GMapTo (go_type_repr values)
  | TClass n => GPointer (GNamed n)
  | TEmbed n => GNamed n
  end.

(** mapry/go/generate/types.py:34-50 [_property_type_repr] *)
Definition go_property_type (p : prop) : go_type :=
  if p_optional p then
    if M_GoGen.is_pointer_type (p_type p) then go_type_repr (p_type p) else GPointer (go_type_repr (p_type p))
  else go_type_repr (p_type p).

(** types.py:53-204: the structures with the types of their fields.  The identifiers of
    the classes, and the registries, maps of pointers, are left out. *)
Definition go_structs (g : graph) : list (str * list go_type) :=
  map (fun e => (e_name e, map go_property_type (e_props e))) (g_embeds g) ++
  map (fun c => (c_name c, map go_property_type (c_props c))) (g_classes g) ++
  [(g_name g, map go_property_type (g_props g))].
