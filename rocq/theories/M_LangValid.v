(** The validation of a schema for a target language: mapry/py/validation.py,
    mapry/go/validation.py and mapry/cpp/validation.py.  The three modules have the
    same structure; they differ in the keywords, the naming functions and the name
    reserved for the identifiers of instances. *)
From Coq Require Import String List Arith NArith ZArith Bool.
From Verif Require Import Base M_Naming M_Schema M_Strftime M_Walk M_Validate.
Import ListNotations.
Open Scope list_scope.

(** The errors: [mapry.validation.SchemaError].  The texts are represented by the
    branch which composes them; [other] is the reference of the conflicting part. *)
Inductive lkind :=
| KKeyword (name : str)
| KConflict (name other : str)
| KReservedId (name : str)
| KRegistryKeyword (name : str)
| KRegistryProperty (name other : str)
| KRegistryRegistry (name other : str)
| KDirective (format : str).
Record lerr := LErr { le_ref : str; le_kind : lkind }.

Section Language.
  Variable keywords : list str.              (** [_KEYWORDS] *)
  Variable field_name : str -> res str.      (** of a property or a registry *)
  Variable composite_name : str -> res str.
  Variable id_field : str.

  (** [_properties_to_attributes], py/validation.py:33-47; [_properties_to_fields],
      go/validation.py:34-48 and cpp/validation.py:43-55: the names with the
      references *)
  Definition fields_of (ps : list prop) : res (list (str * str)) :=
    mapM (fun p => do n <- field_name (p_name p); Ok (n, p_ref p)) ps.

  (** [_validate_attributes], py/validation.py:50-84; [_validate_fields],
      go/validation.py:51-84 and cpp/validation.py:58-93; [seen] is the dictionary of
      the names *)
  Fixpoint validate_fields (seen : list (str * str)) (fields : list (str * str)) : list lerr :=
    match fields with
    | [] => []
    | (name, ref) :: rest =>
        (if mem name keywords then [LErr ref (KKeyword name)] else []) ++
        match lookup name seen with
        | Some other => LErr ref (KConflict name other) :: validate_fields seen rest
        | None => validate_fields (upsert name ref seen) rest
        end
    end.

  (** [_validate_class_attributes], py/validation.py:87-115; [_validate_class_fields],
      go/validation.py:87-109 and cpp/validation.py:96-119 *)
  Definition validate_class_fields (c : cls) : res (list lerr) :=
    do fields <- fields_of (c_props c);
    Ok (validate_fields [] fields ++
        flat_map (fun f => if str_eqb (fst f) id_field then [LErr (snd f) (KReservedId (fst f))] else []) fields).

  (** py/validation.py:265-268; [_validate_embed_fields], go/validation.py:112-125 and
      cpp/validation.py:122-134 *)
  Definition validate_embed_fields (e : embed) : res (list lerr) :=
    do fields <- fields_of (e_props e);
    Ok (validate_fields [] fields).

  (** The loop over the registries: py/validation.py:141-183, go/validation.py:143-183,
      cpp/validation.py:153-191 *)
  Fixpoint validate_registries (property_map seen : list (str * str)) (cs : list cls) : res (list lerr) :=
    match cs with
    | [] => Ok []
    | c :: rest =>
        do name <- field_name (c_plural c);
        let keyword := if mem name keywords then [LErr (c_ref c) (KRegistryKeyword name)] else [] in
        let property := match lookup name property_map with
                        | Some other => [LErr (c_ref c) (KRegistryProperty name other)]
                        | None => []
                        end in
        match lookup name seen with
        | Some other =>
            do errs <- validate_registries property_map seen rest;
            Ok (keyword ++ property ++ [LErr (c_ref c) (KRegistryRegistry name other)] ++ errs)
        | None =>
            do errs <- validate_registries property_map (upsert name (c_ref c) seen) rest;
            Ok (keyword ++ property ++ errs)
        end
    end.

  (** [_validate_graph_attributes], py/validation.py:118-185; [_validate_graph_fields],
      go/validation.py:128-183 and cpp/validation.py:137-193 *)
  Definition validate_graph_fields (g : graph) : res (list lerr) :=
    do fields <- fields_of (g_props g);
    let property_map := fold_left (fun m f => upsert (fst f) (snd f) m) fields [] in
    do errs <- validate_registries property_map [] (g_classes g);
    Ok (validate_fields [] fields ++ errs).

  (** The loops over the classes and over the embeds in [validate_schema]:
      py/validation.py:211-242 and 244-268, go/validation.py:336-366 and 368-394,
      cpp/validation.py:219-247 and 249-275; an element is the name, the reference and
      the errors in the properties.  Returns the errors and the dictionary
      [name_to_composite]. *)
  Fixpoint validate_composites (seen : list (str * str)) (l : list (str * str * res (list lerr)))
    : res (list lerr * list (str * str)) :=
    match l with
    | [] => Ok ([], seen)
    | (name, ref, own) :: rest =>
        do id <- composite_name name;
        let keyword := if mem id keywords then [LErr ref (KKeyword id)] else [] in
        let conflict := match lookup id seen with Some other => [LErr ref (KConflict id other)] | None => [] end in
        let seen' := match lookup id seen with Some _ => seen | None => upsert id ref seen end in
        do own_errs <- own;
        do r <- validate_composites seen' rest;
        Ok (keyword ++ conflict ++ own_errs ++ fst r, snd r)
    end.

  (** [validate_schema]: py/validation.py:188-274, go/validation.py:312-397 (without the
      formats), cpp/validation.py:196-280 *)
  Definition validate_schema (g : graph) : res (list lerr) :=
    do id <- composite_name (g_name g);
    let keyword := if mem id keywords then [LErr (g_ref g) (KKeyword id)] else [] in
    let seen := if mem id keywords then [(id, g_ref g)] else [] in
    do cs <- validate_composites seen (map (fun c => (c_name c, c_ref c, validate_class_fields c)) (g_classes g));
    do es <- validate_composites (snd cs) (map (fun e => (e_name e, e_ref e, validate_embed_fields e)) (g_embeds g));
    do gs <- validate_graph_fields g;
    Ok (keyword ++ fst cs ++ fst es ++ gs).
End Language.

(** * Python *)

(** py/validation.py:9-14 *)
Definition PY_KEYWORDS : list str :=
  map s_
   ["False"; "None"; "True"; "and"; "as"; "assert"; "break"; "class"; "continue"; "def"; "del";
    "elif"; "else"; "except"; "finally"; "for"; "from"; "global"; "if"; "import"; "in"; "is";
    "lambda"; "nonlocal"; "not"; "or"; "pass"; "raise"; "return"; "try"; "while"; "with";
    "yield"]%string.

(** py/validation.py:188-274 *)
Definition py_validate (g : graph) : res (list lerr) :=
  validate_schema PY_KEYWORDS as_attribute as_composite (s_ "id") g.

(** * C++ *)

(** cpp/validation.py:10-26 *)
Definition CPP_KEYWORDS : list str :=
  map s_
   ["alignas"; "alignof"; "and"; "and_eq"; "asm"; "atomic_cancel"; "atomic_commit";
    "atomic_noexcept"; "auto"; "bitand"; "bitor"; "bool"; "break"; "case"; "catch"; "char";
    "char16_t"; "char32_t"; "class"; "compl"; "concept"; "const"; "constexpr"; "const_cast";
    "continue"; "co_await"; "co_return"; "co_yield"; "decltype"; "default"; "delete"; "do";
    "double"; "dynamic_cast"; "else"; "enum"; "explicit"; "export"; "extern"; "false"; "float";
    "for"; "friend"; "goto"; "if"; "import"; "inline"; "int"; "long"; "module"; "mutable";
    "namespace"; "new"; "noexcept"; "not"; "not_eq"; "nullptr"; "operator"; "or"; "or_eq";
    "private"; "protected"; "public"; "register"; "reinterpret_cast"; "requires"; "return";
    "short"; "signed"; "sizeof"; "static"; "static_assert"; "static_cast"; "struct"; "switch";
    "synchronized"; "template"; "this"; "thread_local"; "throw"; "true"; "try"; "typedef";
    "typeid"; "typename"; "union"; "unsigned"; "using"; "virtual"; "void"; "volatile"; "wchar_t";
    "while"; "xor"; "xor_eq"]%string.

(** cpp/validation.py:196-280 *)
Definition cpp_validate (g : graph) : res (list lerr) :=
  validate_schema CPP_KEYWORDS as_field as_composite (s_ "id") g.

(** * Go *)

(** go/validation.py:10-15 *)
Definition GO_KEYWORDS : list str :=
  map s_
   ["break"; "default"; "func"; "interface"; "select"; "case"; "defer"; "go"; "map"; "struct";
    "chan"; "else"; "goto"; "package"; "switch"; "const"; "fallthrough"; "if"; "range"; "type";
    "continue"; "for"; "import"; "return"; "var"]%string.

(** go/validation.py:185-228: the reserved names are computed and compared, but the
    errors are not added to the list; only the exceptions of the conversions are left. *)
Definition go_reserved_names (g : graph) : res (list str) :=
  do names <- mapM ucamel_case (g_name g :: map c_name (g_classes g) ++ map e_name (g_embeds g));
  Ok (s_ "Errors" :: flat_map (fun n => [n ++ s_ "FromJSONable"; n ++ s_ "ToJSONable"]) names).

(** [isinstance(a_type, (mapry.Date, mapry.Datetime, mapry.Time))] and [a_type.format] *)
Definition format_of (t : ty) : option str :=
  match t with TDate f | TTime f | TDatetime f => Some f | _ => None end.

(** go/validation.py:259-309, [_validate_date_time_formats]: an error for each text
    which contains a directive *)
Fixpoint validate_formats (types : list (ty * str)) : res (list lerr) :=
  match types with
  | [] => Ok []
  | (t, ref) :: rest =>
      do errs <- (match format_of t with
                  | Some f =>
                      do lines <- tokenize f;
                      Ok (map (fun _ => LErr ref (KDirective f)) (filter text_conflicts (concat lines)))
                  | None => Ok []
                  end);
      do errs' <- validate_formats rest;
      Ok (errs ++ errs')
  end.

(** go/validation.py:312-399 *)
Definition go_validate (g : graph) : res (list lerr) :=
  do errs <- validate_schema GO_KEYWORDS ucamel_case ucamel_case (s_ "ID") g;
  do _ <- go_reserved_names g;
  do formats <- validate_formats (iterate_over_types g);
  Ok (errs ++ formats).
