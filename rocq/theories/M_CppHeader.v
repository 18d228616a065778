(** The functions which the generated C++ header declares: mapry/cpp/generate/jsoncpp_header.py. *)
From Coq Require Import String List Arith NArith ZArith Bool.
From Verif Require Import Base M_Naming M_Schema M_TypeGraph M_GoImports S_Scope M_Scope M_GoScope M_CppScope S_CppTyping M_CppTyping.
Import ListNotations.
Open Scope list_scope.
Local Open Scope nat_scope.

Section Header.
  Variable g : graph.

  (** jsoncpp_header.py:102-117: the function which parses the graph *)
  Definition declare_graph_parser : str * csignature :=
    (cpp_from (g_name g),
     CSig [ByReference t_value; ByValue CString; ByValue (CPointer false (CNamed (ucamel (g_name g))));
           ByValue (CPointer false t_parse_errors)] CVoid).
  (** 119-143: the others; the registries are called as the plurals, and their types after the
      classes. *)
  Definition declare_parser (name : str) (references : list cls) : str * csignature :=
    (cpp_from name,
     CSig ([ByReference t_value] ++
           map (fun c => ByReference (CMap (CUnique (CNamed (ucamel (c_name c)))))) references ++
           [ByValue CString; ByValue (CPointer false (CNamed (ucamel name))); ByValue (CPointer false t_parse_errors)]) CVoid).
  (** 146-166 [_parse_definitions]: first the embeddable structures, then the classes; the
      references are those of [mapry.references] *)
  Definition parse_definitions : list (str * csignature) :=
    declare_graph_parser ::
    map (fun ek => declare_parser (e_name (fst ek)) (references_of g (snd ek)))
        (combine (g_embeds g) (List.seq (length (g_classes g)) (length (g_embeds g)))) ++
    map (fun ck => declare_parser (c_name (fst ck)) (references_of g (snd ck)))
        (combine (g_classes g) (List.seq 0 (length (g_classes g)))).
  (** 169-193 [_serialize_definitions], on the composites of 229-232 *)
  Definition serialize_definitions : list (str * csignature) :=
    map (fun name => (cpp_serializer_name name, CSig [ByReference (CNamed (ucamel name))] t_value))
        (g_name g :: map c_name (g_classes g) ++ map e_name (g_embeds g)).
  (** 197-251 [generate] *)
  Definition header_declarations : list (str * csignature) := parse_definitions ++ serialize_definitions.
End Header.
