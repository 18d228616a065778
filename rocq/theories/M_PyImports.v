(** The imports of the generated Python modules which parse and serialize, and the modules
    which they use: mapry/py/generate/{parse,fromjsonable,tojsonable}.py.

    Of the templates only the modules are kept which the generated code looks up when the
    module is imported or a function of it is called.  Comments, also those with types, and
    docstrings are left out, annotations are not. *)
From Coq Require Import String List Arith NArith ZArith Bool.
From Verif Require Import Base M_Naming M_Schema M_TypeGraph M_Walk M_GoImports.
Import ListNotations.
Open Scope list_scope.
Local Open Scope nat_scope.

Definition mod_typing : str := s_ "typing".
Definition mod_pathlib : str := s_ "pathlib".
Definition mod_pytz : str := s_ "pytz".
Definition mod_pytz_exceptions : str := s_ "pytz.exceptions".
Definition mod_datetime : str := s_ "datetime".
Definition mod_collections : str := s_ "collections".
Definition mod_re : str := s_ "re".
(** [py.module_name] and [py.module_name + '.parse'] *)
Definition mod_types (py : py_conf) : str := pc_module_name py.
Definition mod_parse (py : py_conf) : str := pc_module_name py ++ s_ ".parse".

(** * Imports *)

Definition has_classes (g : graph) : bool := match g_classes g with [] => false | _ => true end.

(** fromjsonable.py:14-106 [_imports]: the blocks one after the other *)
Definition py_needs_regex (t : ty) : bool :=
  match t with TStr (Some _) | TPath (Some _) | TDuration => true | _ => false end.
Definition py_from_imports (py : py_conf) (g : graph) : res (list str) :=
  do paths <- (if graph_needs g (KPrim PPath) then
                 if str_eqb (pc_path_as py) (s_ "str") then Ok []
                 else if str_eqb (pc_path_as py) (s_ "pathlib.Path") then Ok [mod_pathlib]
                 else Raise NotImplementedError
               else Ok []);
  do zones <- (if graph_needs g (KPrim PTimeZone) then
                 if str_eqb (pc_timezone_as py) (s_ "str") then Ok []
                 else if str_eqb (pc_timezone_as py) (s_ "pytz.timezone") then Ok [mod_pytz; mod_pytz_exceptions]
                 else Raise NotImplementedError
               else Ok []);
  let import_re := existsb (fun tr => py_needs_regex (fst tr)) (iterate_over_types g) ||
                   existsb (fun c => match c_id_pattern c with Some _ => true | None => false end) (g_classes g) in
  Ok (import_declarations
        ([mod_typing] ++ paths ++
         when (existsb (fun q => graph_needs g (KPrim q)) [PDate; PTime; PDatetime; PDuration]) [mod_datetime] ++
         when (graph_needs g KMap) [mod_collections] ++
         when (has_classes g) [mod_collections] ++
         when import_re [mod_re]) ++
      import_declarations zones ++
      import_declarations [mod_types py; mod_parse py]).

(** tojsonable.py:14-42 [_imports] *)
Definition py_to_imports (py : py_conf) (g : graph) : list str :=
  import_declarations ([mod_collections; mod_typing] ++ when (graph_needs g (KPrim PDuration)) [mod_datetime]) ++
  import_declarations [mod_types py].

(** parse.py:11-24 [_imports] *)
Definition py_parse_imports (py : py_conf) : list str :=
  import_declarations [mod_typing] ++ import_declarations [mod_types py].

(** * Uses *)

Section Uses.
  Variable py : py_conf.

  (** fromjsonable.py:1104-1249 [_parse_value] with the templates at 248-267, 293-343,
      371-419, 447-481, 509-555, 586-617, 645-675, 703-734, 762-810, 852-879, 907-965,
      1009-1062, 1331-1361 and 1393-1418.  Settings which are not known, for which the
      generator raises, are left out. *)
  Fixpoint py_parse_uses (t : ty) : list str :=
    match t with
    | TBool | TInt _ | TFloat _ => []
    | TStr p => if p then [mod_re] else []
    | TPath p =>
        (if str_eqb (pc_path_as py) (s_ "pathlib.Path") then [mod_pathlib] else []) ++ (if p then [mod_re] else [])
    | TDate _ | TTime _ | TDatetime _ => [mod_datetime]
    | TTimeZone => if str_eqb (pc_timezone_as py) (s_ "pytz.timezone") then [mod_pytz; mod_pytz_exceptions] else []
    | TDuration => []                                     (** [_duration_from_string] *)
    | TArray values _ _ => py_parse_uses values
    | TMap values => [mod_collections] ++ py_parse_uses values
    | TClass _ => []
    | TEmbed _ => [mod_types py; mod_parse py]
    end.
  Definition py_parse_properties_uses (ps : list prop) : list str := flat_map (fun p => py_parse_uses (p_type p)) ps.

  (** fromjsonable.py:109-245 [_duration_from_string] *)
  Definition py_duration_from_string_uses : list str := [mod_re; mod_datetime].

  (** fromjsonable.py:1456-1593 [_parse_composite] *)
  Definition py_parse_composite_uses (ps : list prop) : list str :=
    [mod_typing; mod_types py; mod_parse py] ++ py_parse_properties_uses ps.

  (** fromjsonable.py:1596-1760 [_parse_graph] *)
  Definition py_parse_graph_uses (g : graph) : list str :=
    [mod_typing; mod_types py; mod_parse py] ++
    flat_map (fun c => [mod_collections] ++ (if c_id_pattern c then [mod_re] else []) ++ [mod_types py; mod_parse py]) (g_classes g) ++
    py_parse_properties_uses (g_props g).

  (** fromjsonable.py:1763-1790 [generate] *)
  Definition py_from_uses (g : graph) : list str :=
    (if graph_needs g (KPrim PDuration) then py_duration_from_string_uses else []) ++
    flat_map (fun c => py_parse_composite_uses (c_props c)) (g_classes g) ++
    flat_map (fun e => py_parse_composite_uses (e_props e)) (g_embeds g) ++
    py_parse_graph_uses g.

  (** tojsonable.py:294-313: the templates of maps; the other values (136-292, 363-488)
      are serialized by built-in functions, methods and functions of the same module. *)
  Fixpoint py_serialize_uses (t : ty) : list str :=
    match t with
    | TArray values _ _ => py_serialize_uses values
    | TMap values => [mod_collections] ++ py_serialize_uses values
    | _ => []
    end.

  (** tojsonable.py:519-580 and 583-681: the serialization of a composite *)
  Definition py_serialize_composite_uses (ps : list prop) : list str :=
    [mod_types py; mod_typing; mod_collections] ++ flat_map (fun p => py_serialize_uses (p_type p)) ps.

  (** tojsonable.py:685-715 [generate], with [_duration_to_string] at 45-133 and the
      registries at 619-651 *)
  Definition py_to_uses (g : graph) : list str :=
    (if graph_needs g (KPrim PDuration) then [mod_datetime] else []) ++
    flat_map (fun c => py_serialize_composite_uses (c_props c)) (g_classes g) ++
    flat_map (fun e => py_serialize_composite_uses (e_props e)) (g_embeds g) ++
    py_serialize_composite_uses (g_props g) ++ flat_map (fun _ : cls => [mod_collections]) (g_classes g).

  (** parse.py:27-240: the errors, and the placeholders of classes, embeddable structures
      and of the graph *)
  Definition py_parse_module_uses (g : graph) : list str :=
    [mod_typing] ++ flat_map (fun _ : cls => [mod_types py]) (g_classes g) ++
    flat_map (fun _ : embed => [mod_types py]) (g_embeds g) ++ [mod_types py].
End Uses.
