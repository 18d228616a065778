(** The names in the functions of the generated Python code which parse and serialize:
    mapry/py/generate/{fromjsonable,tojsonable,parse}.py.

    Of the templates only the names are kept which a function declares (its parameters and
    the variables it assigns) and mentions, in the blocks of the loops and branches.  The
    annotations and the comments with types are left out: Python evaluates them outside of
    the function or never.  The keywords of calls and the attributes are left out, too. *)
From Coq Require Import String List Arith NArith ZArith Bool.
From Verif Require Import Base M_Naming M_Schema M_TypeGraph M_Walk M_GoImports M_PyImports M_Text M_PyGen M_AutoID S_Scope M_Scope.
Import ListNotations.
Open Scope list_scope.
Local Open Scope nat_scope.

Section Python.
  Variable py : py_conf.
  Variable g : graph.

  (** fromjsonable.py:1463, 1492, 1650; [as_variable], py/naming.py:33-46, fails only for
      empty names, and the plurals are not empty. *)
  Definition py_registry (c : cls) : str := lower (c_plural c) ++ s_ "_registry".
  Definition registry_param (c : cls) : thing * str := (For "registry" (c_name c), py_registry c).
  Definition mention_registry (c : cls) : code := Mention (For "registry" (c_name c)) (py_registry c).

  Definition py_inner (name : str) : str := s_ "_" ++ lower name ++ s_ "_from".
  Definition py_from (name : str) : str := lower name ++ s_ "_from".
  Definition py_serialize (name : str) : str := s_ "serialize_" ++ lower name.
  Definition py_placeholder (name : str) : str := s_ "placeholder_" ++ lower name.

  (** * Parsing: fromjsonable.py *)

  (** fromjsonable.py:1252-1328 [_parse_property] with the values at 248-1249, 1331-1453: the
      code of all properties of a function in one block.  The numbered variables are assigned
      first; in the code, each is assigned before it is mentioned.  [registry] is the
      expression for the registry of a class. *)
  Definition py_parse_mentions (registry : cls -> list code) (t : ty) : list code :=
    outers ["isinstance"; "type"; "bool"; "int"; "float"; "str"; "list"; "dict"; "enumerate"; "len"; "repr"; "ValueError"; "OverflowError"]%string ++
    owns ["value"; "ref"; "errors"]%string ++
    map (fun m => outer (bound_as m)) (py_parse_uses py t) ++
    (if has_duration t then [outer (s_ "_duration_from_string")] else []) ++
    flat_map (fun n => match find_class g n with Some c => registry c | None => [] end) (classes_in t) ++
    flat_map (fun n => outer (py_inner n) :: flat_map registry (embed_references g n)) (embeds_in t).
  Definition py_parse_block (registry : cls -> list code) (ps : list prop) : code :=
    Block (let_autos (py_parse_body ps) ++ [let_own "err"; own "err"] ++
           flat_map (fun p => py_parse_mentions registry (p_type p)) ps).

  (** fromjsonable.py:1456-1503: the function [_x_from] *)
  Definition py_parse_inner (references : list cls) (ps : list prop) : function :=
    Function ([(Own "value", s_ "value")] ++ map registry_param references ++
              [(Own "ref", s_ "ref"); (Own "target", s_ "target"); (Own "errors", s_ "errors")])
             (outers ["isinstance"; "dict"; "type"]%string ++ owns ["value"; "errors"; "ref"]%string ++
              [py_parse_block (fun c => [mention_registry c]) ps] ++
              owns ["target"; "errors"]%string).

  (** fromjsonable.py:1506-1559: the function [x_from] *)
  Definition py_parse_outer (is_class : bool) (name : str) (references : list cls) : function :=
    Function ([(Own "value", s_ "value")] ++ (if is_class then [(Own "id", s_ "id")] else []) ++
              map registry_param references ++ [(Own "ref", s_ "ref"); (Own "errors", s_ "errors")])
             ([outer (bound_as (mod_types py))] ++ (if is_class then [own "id"] else []) ++
              [let_own "target"] ++ [outer (py_inner name); own "value"] ++ map mention_registry references ++
              owns ["ref"; "target"; "errors"]%string).

  (** fromjsonable.py:1626-1679: the registry of a class is allocated *)
  Definition py_allocate (c : cls) : list code :=
    [own "value"; let_own "registry_value";
     Block (owns ["registry_value"; "errors"; "ref"]%string ++
            outers ["isinstance"; "dict"; "type"; "collections"]%string ++ owns ["graph"]%string ++
            [Declare (For "registry" (c_name c)) (py_registry c); own "registry_value";
             Block (let_own "id" ::
                    (if c_id_pattern c then [outer mod_re; own "id"; own "errors"; own "ref"] else []) ++
                    [own "id"; outer (bound_as (mod_types py)); mention_registry c])]);
     own "errors"].

  (** fromjsonable.py:1680-1705: the instances of a class are parsed *)
  Definition py_fill (c : cls) : list code :=
    let target := s_ "target_" ++ lower (c_name c) in
    [own "value";
     Block [own "value"; let_own "registry_value"; own "registry_value";
            Block ([let_own "id"; let_own "instance_value"; own "graph"; own "id";
                    Declare (For "target" (c_name c)) target; own "id"; Mention (For "target" (c_name c)) target;
                    outer (py_inner (c_name c)); own "instance_value"; own "graph"; own "ref"; outer (s_ "repr"); own "id";
                    Mention (For "target" (c_name c)) target; own "errors"])]].

  (** fromjsonable.py:1596-1716 *)
  Definition py_parse_graph : function :=
    Function [(Own "value", s_ "value"); (Own "ref", s_ "ref"); (Own "errors", s_ "errors")]
             (owns ["errors"; "value"; "ref"]%string ++ outers ["isinstance"; "dict"; "type"]%string ++
              [outer (bound_as (mod_types py)); let_own "graph"] ++
              flat_map py_allocate (g_classes g) ++ owns ["errors"]%string ++
              flat_map py_fill (g_classes g) ++
              [py_parse_block (fun _ => [own "graph"]) (g_props g)] ++
              owns ["graph"; "errors"]%string).

  (** fromjsonable.py:1763-1810 [generate], with the functions of the composites; the function
      [_duration_from_string] has no names of the schema. *)
  Definition py_composite_parsers (is_class : bool) (name : str) (k : nat) (ps : list prop) : list function :=
    [py_parse_inner (references_of g k) ps; py_parse_outer is_class name (references_of g k)].
  Definition py_parsers : list function :=
    flat_map (fun ck => py_composite_parsers true (c_name (fst ck)) (snd ck) (c_props (fst ck)))
             (combine (g_classes g) (List.seq 0 (length (g_classes g)))) ++
    flat_map (fun ek => py_composite_parsers false (e_name (fst ek)) (snd ek) (e_props (fst ek)))
             (combine (g_embeds g) (List.seq (length (g_classes g)) (length (g_embeds g)))) ++
    [py_parse_graph].
  Definition py_from_defined : list str :=
    (if graph_needs g (KPrim PDuration) then [s_ "_duration_from_string"] else []) ++
    flat_map (fun c => [py_inner (c_name c); py_from (c_name c)]) (g_classes g) ++
    flat_map (fun e => [py_inner (e_name e); py_from (e_name e)]) (g_embeds g) ++
    [py_from (g_name g)].

  (** * Serialization: tojsonable.py *)

  (** [PySettings]: the settings of tojsonable.py:251-258 and 380-409 *)
  Definition py_settings_of : py_settings :=
    PySettings (str_eqb (pc_path_as py) (s_ "pathlib.Path")) (str_eqb (pc_timezone_as py) (s_ "pytz.timezone")).

  (** tojsonable.py:204-516: the code of all properties of a function in one block, as above *)
  Definition py_serialize_mentions (t : ty) : list code :=
    outers ["str"; "len"; "isinstance"; "dict"]%string ++ owns ["instance"]%string ++
    map (fun m => outer (bound_as m)) (py_serialize_uses t) ++
    (if has_duration t then [outer (s_ "_duration_to_string")] else []) ++
    map (fun n => outer (py_serialize n)) (embeds_in t).
  Definition py_serialize_block (ps : list prop) : code :=
    Block (let_autos (py_serialize_body py_settings_of ps) ++
           flat_map (fun p => py_serialize_mentions (p_type p)) ps ++ [own "target"]).

  (** tojsonable.py:519-580 *)
  Definition instance_params : list (thing * str) := [(Own "instance", s_ "instance"); (Own "ordered", s_ "ordered")].
  Definition py_serializer (ps : list prop) : function :=
    Function instance_params
             ([own "ordered"; outer mod_collections; outer (s_ "dict"); let_own "target"; py_serialize_block ps; own "target"]).

  (** tojsonable.py:619-651 *)
  Definition py_serialize_registry (c : cls) : list code :=
    let target := s_ "target_" ++ lower (c_plural c) in
    let instance := lower (c_name c) ++ s_ "_instance" in
    [outer (s_ "len"); own "instance";
     Block [own "ordered"; outer mod_collections; outer (s_ "dict"); Declare (For "target" (c_name c)) target;
            own "instance";
            Block [let_own "id"; Declare (For "instance" (c_name c)) instance;
                   own "id"; Mention (For "instance" (c_name c)) instance; outer (s_ "ValueError");
                   Mention (For "target" (c_name c)) target; own "id"; outer (py_serialize (c_name c));
                   Mention (For "instance" (c_name c)) instance; own "ordered"];
            own "target"; Mention (For "target" (c_name c)) target]].

  (** tojsonable.py:583-681 *)
  Definition py_serialize_graph : function :=
    Function instance_params
             ([own "ordered"; outer mod_collections; outer (s_ "dict"); let_own "target"; py_serialize_block (g_props g)] ++
              flat_map py_serialize_registry (g_classes g) ++ [own "target"]).

  (** tojsonable.py:685-715 [generate] *)
  Definition py_serializers : list function :=
    map (fun c => py_serializer (c_props c)) (g_classes g) ++ map (fun e => py_serializer (e_props e)) (g_embeds g) ++
    [py_serialize_graph].
  Definition py_to_defined : list str :=
    (if graph_needs g (KPrim PDuration) then [s_ "_duration_to_string"] else []) ++
    map (fun c => py_serialize (c_name c)) (g_classes g) ++ map (fun e => py_serialize (e_name e)) (g_embeds g) ++
    [py_serialize (g_name g)].

  (** * Placeholders: parse.py *)

  (** parse.py:84-111, 131-154 and 174-200 *)
  Definition py_class_placeholder : function :=
    Function [(Own "id", s_ "id")] [outer (bound_as (mod_types py)); own "id"].
  Definition py_plain_placeholder : function := Function [] [outer (bound_as (mod_types py))].

  (** parse.py:219-245 [generate], with the classes at 27-80 *)
  Definition py_placeholders : list function :=
    map (fun _ => py_plain_placeholder) (g_embeds g) ++ map (fun _ => py_class_placeholder) (g_classes g) ++
    [py_plain_placeholder].
  Definition py_parse_defined : list str :=
    map s_ ["Error"; "Errors"]%string ++ map (fun e => py_placeholder (e_name e)) (g_embeds g) ++
    map (fun c => py_placeholder (c_name c)) (g_classes g) ++ [py_placeholder (g_name g)].
End Python.
