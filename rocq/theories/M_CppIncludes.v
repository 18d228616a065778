(** The include directives of the generated C++ sources, and the entities of libraries
    which they mention: mapry/cpp/generate/{types_header,parse_header,jsoncpp_header,
    jsoncpp_impl}.py.

    Of the templates only the names are kept which are declared by a header of the
    standard library or of a third party; comments and the members of objects are left
    out.  The paths of the own headers are left out: which of them a source includes is
    said below. *)
From Coq Require Import String List Arith NArith ZArith Bool.
From Verif Require Import Base M_Naming M_Schema M_TypeGraph M_Walk M_GoImports.
Import ListNotations.
Open Scope list_scope.
Local Open Scope nat_scope.

(** * Include directives *)

Section Settings.
  Variable cpp : cpp_conf.

  Definition ctime : bool := str_eqb (cc_datetime_library cpp) (s_ "ctime").
  Definition date_h : bool := str_eqb (cc_datetime_library cpp) (s_ "date.h").

  (** types_header.py:33-41 and jsoncpp_header.py:43-50: the standard headers and those of
      third parties *)
  Definition path_includes (g : graph) : res (list str * list str) :=
    if graph_needs g (KPrim PPath) then
      if str_eqb (cc_path_as cpp) (s_ "std::filesystem::path") then Ok ([s_ "filesystem"], [])
      else if str_eqb (cc_path_as cpp) (s_ "boost::filesystem::path") then Ok ([], [s_ "boost/filesystem/path.hpp"])
      else Raise NotImplementedError
    else Ok ([], []).

  (** types_header.py:79-99 and jsoncpp_header.py:57-88 *)
  Definition has_optional (g : graph) : bool :=
    existsb p_optional (g_props g) || existsb (fun c => existsb p_optional (c_props c)) (g_classes g) ||
    existsb (fun e => existsb p_optional (e_props e)) (g_embeds g).
  Definition optional_includes (g : graph) : res (list str * list str) :=
    if has_optional g then
      if str_eqb (cc_optional_as cpp) (s_ "boost::optional") then Ok ([], [s_ "boost/optional.hpp"])
      else if str_eqb (cc_optional_as cpp) (s_ "std::optional") then Ok ([s_ "optional"], [])
      else if str_eqb (cc_optional_as cpp) (s_ "std::experimental::optional") then Ok ([], [s_ "optional.hpp"])
      else Raise NotImplementedError
    else Ok ([], []).

  Definition any_date (g : graph) : bool := existsb (fun q => graph_needs g (KPrim q)) [PDate; PTime; PDatetime].

  (** types_header.py:43-64 *)
  Definition date_includes (g : graph) : res (list str * list str) :=
    if ctime then
      Ok (when (any_date g) [s_ "ctime"] ++ when (graph_needs g (KPrim PTimeZone)) [s_ "string"], [])
    else if date_h then
      Ok (when (graph_needs g (KPrim PTime)) [s_ "chrono"],
          when (any_date g) [s_ "date/date.h"] ++ when (graph_needs g (KPrim PTimeZone)) [s_ "date/tz.h"])
    else Raise NotImplementedError.

  (** types_header.py:13-108 [_includes]: third parties first *)
  Definition types_includes (g : graph) : res (list str) :=
    do paths <- path_includes g;
    do dates <- date_includes g;
    do optionals <- optional_includes g;
    Ok (import_declarations (snd paths ++ snd dates ++ snd optionals) ++
        import_declarations
          (when (graph_needs g (KPrim PInteger)) [s_ "cstdint"] ++
           when (graph_needs g (KPrim PString)) [s_ "string"] ++
           fst paths ++ fst dates ++
           when (graph_needs g (KPrim PDuration)) [s_ "chrono"] ++
           when (graph_needs g KArray) [s_ "vector"] ++
           when (graph_needs g KMap) [s_ "map"] ++
           when (match g_classes g with [] => false | _ => true end) [s_ "map"; s_ "string"; s_ "memory"] ++
           fst optionals)).

  (** parse_header.py:76-89 *)
  Definition parse_header_includes : list str := [s_ "string"; s_ "vector"].

  (** jsoncpp_header.py:14-97 [_includes]; the own headers, those with the types and the
      errors, come last and are left out. *)
  Definition jsoncpp_header_includes (g : graph) : res (list str) :=
    do paths <- path_includes g;
    do optionals <- optional_includes g;
    Ok (import_declarations ([s_ "json/json.h"] ++ snd paths ++ snd optionals) ++
        import_declarations
          (when (graph_needs g (KPrim PString)) [s_ "string"] ++ fst paths ++
           when (match g_classes g with [] => false | _ => true end) [s_ "map"; s_ "string"] ++
           fst optionals)).

  (** jsoncpp_impl.py:20-39 [_needs_regex] *)
  Definition cpp_needs_regex (t : ty) : bool :=
    match t with TStr (Some _) | TPath (Some _) | TDuration => true | _ => false end.

  (** jsoncpp_impl.py:42-137 [_includes]; the own headers, all three of them, come first
      and are left out. *)
  Definition impl_includes (g : graph) : res (list str) :=
    let include_regex := existsb (fun tr => cpp_needs_regex (fst tr)) (iterate_over_types g) ||
                         existsb (fun c => match c_id_pattern c with Some _ => true | None => false end) (g_classes g) in
    do dates <- (if ctime then Ok (when (any_date g) [s_ "cstring"], [])
                 else if date_h then
                   Ok (when (any_date g) [s_ "sstream"],
                       when (any_date g) [s_ "date/date.h"] ++ when (graph_needs g (KPrim PTimeZone)) [s_ "date/tz.h"])
                 else Raise NotImplementedError);
    Ok (import_declarations (snd dates) ++
        import_declarations
          ([s_ "cstring"; s_ "string"; s_ "sstream"; s_ "stdexcept"; s_ "memory"; s_ "utility"] ++
           when include_regex [s_ "regex"] ++ fst dates ++
           when (graph_needs g (KPrim PDuration)) [s_ "iomanip"; s_ "limits"; s_ "cmath"])).

  (** What the compiler sees: the own headers are included where the source says so. *)
  Definition jsoncpp_header_sees (g : graph) : res (list str) :=
    do own <- jsoncpp_header_includes g; do types <- types_includes g;
    Ok (own ++ types ++ parse_header_includes).
  Definition impl_sees (g : graph) : res (list str) :=
    do header <- jsoncpp_header_sees g; do own <- impl_includes g;
    Ok (header ++ own).

  (** * Mentioned entities *)

  (** generate/__init__.py:28-118 [type_repr].  Settings which are not known, for which
      the generator raises, are left out. *)
  Fixpoint repr_entities (t : ty) : list str :=
    match t with
    | TBool | TFloat _ => []
    | TInt _ => [s_ "int64_t"]
    | TStr _ => [s_ "std::string"]
    | TPath _ => [cc_path_as cpp]
    | TDate _ => if ctime then [s_ "struct tm"] else [s_ "date::local_days"]
    | TTime _ => if ctime then [s_ "struct tm"] else [s_ "date::time_of_day"; s_ "std::chrono::seconds"]
    | TDatetime _ => if ctime then [s_ "struct tm"] else [s_ "date::local_seconds"]
    | TTimeZone => if ctime then [s_ "std::string"] else [s_ "date::time_zone"]
    | TDuration => [s_ "std::chrono::nanoseconds"]
    | TArray values _ _ => s_ "std::vector" :: repr_entities values
    | TMap values => s_ "std::map" :: s_ "std::string" :: repr_entities values
    | TClass _ | TEmbed _ => []
    end.

  (** types_header.py:225-269 [_property_fields]; the default values mention what the
      types mention. *)
  Definition field_entities (ps : list prop) : list str :=
    flat_map (fun p => (if p_optional p then [cc_optional_as cpp] else []) ++ repr_entities (p_type p)) ps.

  (** types_header.py:272-411: the embeddable structures, the classes with their
      identifiers, and the graph with the registries *)
  Definition types_entities (g : graph) : list str :=
    flat_map (fun e => field_entities (e_props e)) (g_embeds g) ++
    flat_map (fun c => s_ "std::string" :: field_entities (c_props c)) (g_classes g) ++
    field_entities (g_props g) ++
    flat_map (fun _ : cls => [s_ "std::map"; s_ "std::string"; s_ "std::unique_ptr"]) (g_classes g).

  (** jsoncpp_header.py:100-189; a composite may refer to every class of the graph (the
      references are not looked up here). *)
  Definition jsoncpp_header_entities (g : graph) : list str :=
    [s_ "Json::Value"; s_ "std::string"] ++
    flat_map (fun _ : cls => [s_ "std::map"; s_ "std::string"; s_ "std::unique_ptr"]) (g_classes g).

  (** jsoncpp_impl.py:1672-1823 [_parse_value] with the templates from 499 to 1634 *)
  Fixpoint parse_entities (t : ty) : list str :=
    s_ "Json::Value" :: s_ "strlen" :: s_ "std::string" ::
    match t with
    | TBool | TClass _ | TEmbed _ => []
    | TInt b | TFloat b => (if b_min b then [s_ "std::to_string"] else []) ++ (if b_max b then [s_ "std::to_string"] else [])
    | TStr p => if p then [s_ "std::regex"; s_ "std::regex_match"] else []
    | TPath p => (if p then [s_ "std::regex"; s_ "std::regex_match"] else []) ++ [cc_path_as cpp]
    | TDate _ | TDatetime _ =>
        if ctime then [s_ "struct tm"; s_ "strptime"] else [s_ "std::istringstream"; s_ "date::parse"]
    | TTime _ =>
        if ctime then [s_ "struct tm"; s_ "strptime"]
        else [s_ "std::chrono::seconds"; s_ "std::istringstream"; s_ "date::parse"; s_ "date::make_time"]
    | TTimeZone => if ctime then [] else [s_ "date::locate_zone"; s_ "std::runtime_error"]
    | TDuration => [s_ "std::chrono::nanoseconds"]
    | TArray values _ _ => repr_entities t ++ [s_ "std::to_string"] ++ parse_entities values
    | TMap values => repr_entities t ++ parse_entities values
    end.

  (** jsoncpp_impl.py:2526-2597 [_serialize_value] with the templates from 2321 to 2492 *)
  Fixpoint serialize_entities (t : ty) : list str :=
    match t with
    | TDate f | TTime f | TDatetime f => if ctime then [] else match f with [] => [] | _ => [s_ "date::format"] end
    | TArray values _ _ | TMap values => [s_ "Json::Value"; s_ "std::move"] ++ serialize_entities values
    | _ => []
    end.

  (** jsoncpp_impl.py:140-165 [_message_function] and 443-475 [_value_type_to_string] *)
  Definition helper_entities : list str :=
    [s_ "std::string"; s_ "size_t"; s_ "Json::ValueType"; s_ "std::stringstream"; s_ "std::domain_error"].

  (** jsoncpp_impl.py:167-212 [_regex_constants] *)
  Definition regex_entities (g : graph) : list str :=
    (if graph_needs g (KPrim PDuration) then [s_ "std::regex"] else []) ++
    flat_map (fun c => match c_id_pattern c with Some _ => [s_ "std::regex"] | None => [] end) (g_classes g).

  (** jsoncpp_impl.py:215-441 [_duration_from_string] and 2228-2316 [_duration_to_string] *)
  Definition duration_entities : list str :=
    [s_ "std::invalid_argument"; s_ "std::numeric_limits"; s_ "std::chrono::nanoseconds"; s_ "std::string"; s_ "std::smatch";
     s_ "std::regex_match"; s_ "std::stringstream"; s_ "size_t"; s_ "std::atol"; s_ "std::stod"; s_ "std::stol";
     s_ "std::overflow_error"; s_ "std::setfill"; s_ "std::setw"].

  (** jsoncpp_impl.py:2191-2224 [_datetime_to_string] *)
  Definition tm_entities : list str := [s_ "std::string"; s_ "struct tm"; s_ "size_t"; s_ "strlen"; s_ "strftime"].

  (** jsoncpp_impl.py:1912-1986 [_parse_composite] and 2650-2700; the registries as in the
      header *)
  Definition composite_entities (g : graph) (ps : list prop) : list str :=
    jsoncpp_header_entities g ++ [s_ "strlen"] ++
    flat_map (fun p => parse_entities (p_type p) ++ serialize_entities (p_type p)) ps.

  (** jsoncpp_impl.py:1989-2180 [_parse_graph] and 2703-2785 [_serialize_graph] *)
  Definition graph_entities (g : graph) : list str :=
    [s_ "Json::Value"; s_ "std::string"; s_ "std::invalid_argument"; s_ "strlen"] ++
    flat_map (fun c => [s_ "std::string"; s_ "Json::ValueConstIterator"; s_ "std::make_unique"; s_ "std::move"] ++
                       match c_id_pattern c with Some _ => [s_ "std::regex_match"] | None => [] end) (g_classes g) ++
    flat_map (fun p => parse_entities (p_type p) ++ serialize_entities (p_type p)) (g_props g).

  (** jsoncpp_impl.py:2788-2894 [generate] *)
  Definition impl_entities (g : graph) : list str :=
    helper_entities ++ regex_entities g ++
    (if graph_needs g (KPrim PDuration) then duration_entities else []) ++
    (if ctime && any_date g then tm_entities else []) ++
    flat_map (fun c => composite_entities g (c_props c)) (g_classes g) ++
    flat_map (fun e => composite_entities g (e_props e)) (g_embeds g) ++
    graph_entities g.
End Settings.
