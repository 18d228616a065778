(** The names in the functions of the generated C++ code which parse and serialize:
    mapry/cpp/generate/{jsoncpp_impl,jsoncpp_header}.py.

    Of the templates only the names are kept which a function declares, mentions and assigns,
    in the blocks of the loops and branches.  A variable is in scope in its own initializer,
    and that of a loop in the block of the loop.  Members, the texts and the types of the
    parameters are left out, and so are the names before [::] except those of the regular
    expressions: [std], [Json], [date], [boost] and [parse] can only be hidden by types and
    namespaces (see [cpp_source_right]). *)
From Coq Require Import String List Arith NArith ZArith Bool.
From Verif Require Import Base M_Naming M_Schema M_Dec M_TypeGraph M_GoImports S_Scope M_Scope M_GoScope.
Import ListNotations.
Open Scope list_scope.
Local Open Scope nat_scope.

Section Cpp.
  Variable cpp : cpp_conf.
  Variable g : graph.

  (** [cpp.datetime_library]: "ctime", or else "date.h" (the generator raises for others) *)
  Definition cpp_ctime : bool := str_eqb (cc_datetime_library cpp) (s_ "ctime").

  (** cpp/naming.py:26-36 [as_variable] is [lower], 8-23 [as_composite] is [ucamel]. *)
  (** jsoncpp_impl.py:1914, 1991 and 2643, 2706 *)
  Definition cpp_from (name : str) : str := lower name ++ s_ "_from".
  Definition cpp_serializer_name (name : str) : str := s_ "serialize_" ++ lower name.
  (** 203-206 *)
  Definition cpp_id_space (c : cls) : str := lower (c_name c) ++ s_ "_re".
  (** 1919 and 1962 *)
  Definition cpp_registry (c : cls) : thing * str := (For "registry" (c_name c), lower (c_plural c) ++ s_ "_registry").
  Definition cpp_mention_registry (c : cls) : code := Mention (fst (cpp_registry c)) (snd (cpp_registry c)).

  (** cpp/generate/__init__.py:26-80 [type_repr], without what is qualified *)
  Fixpoint cpp_type (t : ty) : list code :=
    match t with
    | TInt _ => [outer (s_ "int64_t")]
    | TDate _ | TTime _ | TDatetime _ => if cpp_ctime then [outer (s_ "tm")] else []
    | TArray values _ _ | TMap values => cpp_type values
    | TClass n | TEmbed n => [outer (ucamel n)]
    | _ => []
    end.

  (** * Parsing *)

  (** e.g. 513-522: a message in the constant [text], and the error *)
  Definition cpp_report (text : string) (ref about : list code) : list code :=
    [let_own text; own "errors"] ++ ref ++ [outer (s_ "message"); own text; outer (s_ "strlen"); own text] ++ about.
  Definition cpp_bad_type (value ref : list code) : code :=
    Block (cpp_report "expected_but_got" ref (outer (s_ "value_type_to_string") :: value)).
  Definition cpp_got (ref about : list code) : list code := cpp_report "expected_but_got" ref about.

  Definition cast_str (n : nat) : str := auto "cast_" n ++ s_ "_str".

  Section Parse.
    (** The expression of the registry of a class: 1960-1966 and 2163-2166 *)
    Variable registry : cls -> list code.

    (** 1673-1823 [_parse_value] with the functions it calls.  [simple]: the value is a variable
        (cpp/expr.py:8-16 [is_variable]) and needs no other one; [value], [target] and [ref]
        stand for [value_expr], [target_expr] and [ref_parts], [n] for the counter of the
        identifiers. *)
    Definition cpp_value (simple : bool) (value : list code) (n : nat) : list code :=
      if simple then value else [use "value_" n].
    Definition cpp_head (simple : bool) (value : list code) (n : nat) : list code :=
      if simple then [] else let_auto "value_" n :: value.

    (** 563-608, 661-706: the branches on the bounds *)
    Definition cpp_not_ok (n : nat) : code := Store (Auto (auto "ok_" n)) (auto "ok_" n).
    Definition cpp_bounds (b : bounds) (value target ref : list code) (n : nat) : list code :=
      let compare := [use "cast_" n; Block (cpp_got ref [use "cast_" n] ++ [cpp_not_ok n])] in
      match b_min b, b_max b with
      | None, None => target ++ value
      | mn, mx =>
          let_auto "cast_" n :: value ++ let_auto "ok_" n ::
          (if mn then compare else []) ++ (if mx then compare else []) ++
          [use "ok_" n; Block (target ++ [use "cast_" n])]
      end.

    Fixpoint cpp_parse (t : ty) (simple : bool) (value0 target ref : list code) (n : nat) : list code * nat :=
      let value := cpp_value simple value0 n in
      let head := cpp_head simple value0 n ++ value ++ [cpp_bad_type value ref] in
      match t with
      | TBool => (head ++ [Block (target ++ value)], S n)                               (* 499-524 *)
      | TInt b | TFloat b => (head ++ [Block (cpp_bounds b value target ref n)], S n)   (* 551-621, 649-719 *)
      | TStr pattern =>
          (* 747-798 *)
          (head ++
           [Block (match pattern with
                   | None => target ++ value
                   | Some _ =>
                       [let_auto "regex_" n; let_auto "cast_" n] ++ value ++
                       [let_auto "ok_" n; use "cast_" n; use "regex_" n;
                        Block (cpp_got ref [use "cast_" n] ++ [cpp_not_ok n]);
                        use "ok_" n; Block (target ++ [use "cast_" n])]
                   end)], S n)
      | TPath pattern =>
          (* 826-890: the regular expression is not numbered *)
          (head ++
           [Block (match pattern with
                   | None => target ++ value
                   | Some _ =>
                       [let_own "regex"; let_auto "cast_" n] ++ value ++
                       [let_auto "ok_" n; use "cast_" n; own "regex";
                        Block (cpp_got ref [use "cast_" n] ++ [cpp_not_ok n]);
                        use "ok_" n; Block (target ++ value)]
                   end)], S n)
      | TDate _ | TDatetime _ =>
          (* 922-1089 *)
          (head ++
           [Block (if cpp_ctime then
                     let_auto "cast_" n :: value ++
                     [outer (s_ "tm"); let_auto "tm_" n; outer (s_ "tm"); let_auto "ret_" n; outer (s_ "strptime"); use "cast_" n;
                      use "tm_" n; use "ret_" n; Block (cpp_got ref [use "cast_" n]); Block (target ++ [use "tm_" n])]
                   else
                     let_auto "iss_" n :: value ++ use "iss_" n :: target ++ [use "iss_" n; Block (cpp_got ref value)])], S n)
      | TTime _ =>
          (* 1092-1177 *)
          (head ++
           [Block (if cpp_ctime then
                     let_auto "cast_" n :: value ++
                     [outer (s_ "tm"); let_auto "tm_" n; outer (s_ "tm"); let_auto "ret_" n; outer (s_ "strptime"); use "cast_" n;
                      use "tm_" n; use "ret_" n; Block (cpp_got ref [use "cast_" n]); Block (target ++ [use "tm_" n])]
                   else
                     [let_auto "seconds_of_day_" n; let_auto "iss_" n] ++ value ++
                     [use "iss_" n; use "seconds_of_day_" n; use "iss_" n; Block (cpp_got ref value);
                      Block (target ++ [use "seconds_of_day_" n])])], S n)
      | TTimeZone =>
          (* 1180-1284 *)
          (head ++
           [Block (if cpp_ctime then target ++ value
                   else let_auto "cast_" n :: value ++
                        [Block (target ++ [use "cast_" n]);
                         Block (let_own "e" :: cpp_got ref [use "cast_" n])])], S n)
      | TDuration =>
          (* 1287-1353 *)
          (head ++
           [Block (Declare (Auto (cast_str n)) (cast_str n) :: value ++
                   [let_auto "error_" n; let_auto "cast_" n; outer (s_ "duration_from_string"); Mention (Auto (cast_str n)) (cast_str n);
                    use "error_" n; use "error_" n; Block (cpp_report "invalid_duration" ref [use "error_" n]);
                    Block (target ++ [use "cast_" n])])], S n)
      | TArray values mn mx =>
          (* 1356-1470 *)
          let (item, n') := cpp_parse values true [use "item_" n] [use "target_" n; use "i_" n] (ref ++ [use "i_" n]) (S n) in
          let size := value ++ [Block (cpp_got ref value)] in
          (head ++ (if mn then size else []) ++ (if mx then size else []) ++
           [Block (cpp_type t ++ let_auto "target_" n :: target ++ use "target_" n :: value ++
                   [outer (s_ "size_t"); let_auto "i_" n] ++ value ++
                   [Block (let_auto "item_" n :: item ++ [use "i_" n; own "errors"])])], n')
      | TMap values =>
          (* 1473-1541 *)
          let (item, n') := cpp_parse values false [use "it_" n] [use "target_" n; use "it_" n] (ref ++ [use "it_" n]) (S n) in
          (head ++
           [Block (cpp_type t ++ let_auto "target_" n :: target ++
                   [Block (let_auto "it_" n :: value ++ use "it_" n :: value ++ use "it_" n :: item ++ [own "errors"])])], n')
      | TClass name =>
          (* 1544-1612 *)
          let instances := match find_class g name with Some c => registry c | None => [] end in
          (head ++
           [Block (let_auto "cast_" n :: value ++ instances ++
                   [use "cast_" n; Block (cpp_report "reference_not_found" ref [use "cast_" n]);
                    Block (target ++ instances ++ [use "cast_" n])])], S n)
      | TEmbed name =>
          (* 1615-1670 *)
          (cpp_head simple value0 n ++ outer (cpp_from name) :: value ++ flat_map registry (embed_references g name) ++
           ref ++ target ++ [own "errors"], S n)
      end.

    (** 1826-1909 [_parse_property] *)
    Definition cpp_parse_property (p : prop) (n : nat) : list code * nat :=
      let (parsing, n') := cpp_parse (p_type p) false [own "value"] [own "target"] [own "ref"] n in
      (own "value" ::
       (if p_optional p then
          [Block ((match p_type p with TArray _ _ _ | TMap _ | TEmbed _ => [own "target"] | _ => [] end) ++ parsing)]
        else [Block [own "errors"; own "ref"]; Block parsing]), n').
    (** 1938-1943 and 2138-2143: the properties one after the other *)
    Fixpoint cpp_parse_properties (ps : list prop) (n : nat) : list code :=
      match ps with
      | [] => []
      | p :: ps' => let (parsing, n') := cpp_parse_property p n in parsing ++ own "errors" :: cpp_parse_properties ps' n'
      end.
  End Parse.

  (** 1912-1986 [_parse_composite] *)
  Definition cpp_parse_composite (references : list cls) (ps : list prop) : function :=
    Function ([(Own "value", s_ "value")] ++ map cpp_registry references ++
              [(Own "ref", s_ "ref"); (Own "target", s_ "target"); (Own "errors", s_ "errors")])
             ([own "value"; cpp_bad_type [own "value"] [own "ref"]] ++
              cpp_parse_properties (fun c => [cpp_mention_registry c]) ps 0).

  (** 2023: the variable with the reference to the registry of a class *)
  Definition cpp_ref (c : cls) : thing * str := (For "ref" (c_name c), lower (c_plural c) ++ s_ "_ref").
  Definition use_ref (c : cls) : code := Mention (fst (cpp_ref c)) (snd (cpp_ref c)).

  (** 2017-2081: the registry of a class is allocated *)
  Definition cpp_new_instance (c : cls) : list code :=
    [let_own "instance"; outer (ucamel (c_name c)); own "instance"; own "it"; own "target"; own "it"; own "instance"].
  Definition cpp_allocate (c : cls) : list code :=
    [Declare (fst (cpp_ref c)) (snd (cpp_ref c)); use_ref c; own "ref"; use_ref c; own "ref"; use_ref c; own "value";
     Block [let_own "obj"; own "value"; own "obj";
            cpp_bad_type [own "obj"] [use_ref c];
            Block [Block ([let_own "it"; own "obj"; own "it"; own "obj"; own "it"] ++
                          match c_id_pattern c with
                          | Some _ => [own "it"; outer (cpp_id_space c); Block (cpp_got [use_ref c] [own "it"] ++ [own "errors"]);
                                       Block (cpp_new_instance c)]
                          | None => cpp_new_instance c
                          end)]]].

  (** 2095-2136: the instances of a class are parsed *)
  Definition cpp_fill (references : list cls) (c : cls) : list code :=
    [own "instance_ref"; own "instance_ref"; use_ref c; own "instance_ref"; own "value";
     Block [let_own "obj"; own "value";
            Block ([let_own "it"; own "obj"; own "it"; own "obj"; own "it"; own "instance_ref"; use_ref c; own "it";
                    own "instance_ref"; use_ref c; own "instance_ref"; own "it";
                    outer (ucamel (c_name c)); let_own "instance"; own "target"; own "it";
                    outer (cpp_from (c_name c)); own "it"] ++ map (fun _ => own "target") references ++
                   [own "instance_ref"; own "instance"; own "errors"; own "errors"])];
     own "errors"].

  (** 1989-2189 [_parse_graph] *)
  Definition cpp_parse_graph : function :=
    Function [(Own "value", s_ "value"); (Own "ref", s_ "ref"); (Own "target", s_ "target"); (Own "errors", s_ "errors")]
             ([own "errors"; own "errors"; own "value"; cpp_bad_type [own "value"] [own "ref"]] ++
              flat_map cpp_allocate (g_classes g) ++
              (match g_classes g with [] => [] | _ => [own "errors"; let_own "instance_ref"] end) ++
              flat_map (fun ck => cpp_fill (references_of g (snd ck)) (fst ck))
                       (combine (g_classes g) (List.seq 0 (length (g_classes g)))) ++
              cpp_parse_properties (fun _ => [own "target"]) (g_props g) 0).

  (** * Serialization *)

  (** 2527-2606 [_serialize_value] with the functions it calls *)
  Fixpoint cpp_serialize (t : ty) (value target : list code) (n : nat) : list code * nat :=
    match t with
    | TBool | TInt _ | TFloat _ | TStr _ | TPath _ | TTimeZone | TClass _ => (target ++ value, n)
    | TDate f | TTime f | TDatetime f =>
        (* 2321-2413 *)
        (target ++ match f with [] => [] | _ => if cpp_ctime then outer (s_ "tm_to_string") :: value else value end, n)
    | TDuration => (target ++ outer (s_ "duration_to_string") :: value, n)
    | TArray values _ _ =>
        (* 2438-2483 *)
        let (item, n') := cpp_serialize values [use "vector_" n; use "i_" n] [use "target_" n; use "i_" n] (S n) in
        ([let_auto "target_" n; let_auto "vector_" n] ++ value ++
         [Block ([let_auto "i_" n; use "i_" n; use "vector_" n; use "i_" n] ++ item)] ++ target ++ [use "target_" n], n')
    | TMap values =>
        (* 2485-2524 *)
        let (item, n') := cpp_serialize values [use "kv_" n] [use "target_" n; use "kv_" n] (S n) in
        ([let_auto "target_" n; let_auto "map_" n] ++ value ++ use "map_" n ::
         [Block (let_auto "kv_" n :: item)] ++ target ++ [use "target_" n], n')
    | TEmbed name => (target ++ outer (cpp_serializer_name name) :: value, n)
    end.

  (** 2609-2650 [_serialize_property] *)
  Definition cpp_serialize_property (value target : list code) (p : prop) (n : nat) : list code * nat :=
    let (serialization, n') := cpp_serialize (p_type p) value target n in
    (if p_optional p then value ++ [Block serialization] else serialization, n').
  Fixpoint cpp_serialize_properties (value target : list code) (ps : list prop) (n : nat) : list code :=
    match ps with
    | [] => []
    | p :: ps' => let (serialization, n') := cpp_serialize_property value target p n in
                  serialization ++ cpp_serialize_properties value target ps' n'
    end.

  (** 2653-2703 [_serialize_class_or_embed]: the parameter is called like the structure. *)
  Definition cpp_param (name : str) : thing * str := (Own "structure", lower name).
  Definition cpp_result (name : str) : thing * str := (Own "result", lower name ++ s_ "_as_value").
  Definition mention (v : thing * str) : code := Mention (fst v) (snd v).
  Definition cpp_serializer (name : str) (ps : list prop) : function :=
    Function [cpp_param name]
             (match ps with
              | [] => []
              | _ => Declare (fst (cpp_result name)) (snd (cpp_result name)) ::
                     cpp_serialize_properties [mention (cpp_param name)] [mention (cpp_result name)] ps 0 ++ [mention (cpp_result name)]
              end).

  (** 2717-2750: the registry of a class *)
  Definition cpp_registry_value (c : cls) : thing * str := (For "value" (c_name c), lower (c_plural c) ++ s_ "_as_value").
  Definition cpp_serialize_registry (c : cls) : list code :=
    [mention (cpp_param (g_name g));
     Block [Declare (fst (cpp_registry_value c)) (snd (cpp_registry_value c)); mention (cpp_param (g_name g));
            Block [let_own "kv"; let_own "id"; own "kv"; outer (ucamel (c_name c)); let_own "instance"; own "kv";
                   own "id"; own "instance";
                   Block [let_own "expected"; let_own "but_got"; let_own "msg"; own "msg"; outer (s_ "strlen"); own "expected"; own "id";
                          outer (s_ "strlen"); own "but_got"; own "instance"; own "msg"; own "expected"; own "msg"; own "id";
                          own "msg"; own "but_got"; own "msg"; own "instance"; own "msg"];
                   mention (cpp_registry_value c); own "instance"; outer (cpp_serializer_name (c_name c)); own "instance"];
            mention (cpp_result (g_name g)); mention (cpp_registry_value c)]].

  (** 2706-2785 [_serialize_graph] *)
  Definition cpp_serialize_graph : function :=
    Function [cpp_param (g_name g)]
             (match g_props g, g_classes g with
              | [], [] => []
              | _, _ => Declare (fst (cpp_result (g_name g))) (snd (cpp_result (g_name g))) ::
                        cpp_serialize_properties [mention (cpp_param (g_name g))] [mention (cpp_result (g_name g))] (g_props g) 0 ++
                        flat_map cpp_serialize_registry (g_classes g) ++ [mention (cpp_result (g_name g))]
              end).

  (** * The source *)

  (** The types of the parameters: jsoncpp_header.py:110-140 and 179-181, jsoncpp_impl.py:1914-1923,
      1991-1995 and 2656-2658, 2709-2710 *)
  Definition from_entity (name : str) (references : list cls) : entity :=
    Overload (cpp_from name)
      ([s_ "const Json::Value&"] ++
       map (fun c => s_ "const std::map<std::string, std::unique_ptr<" ++ ucamel (c_name c) ++ s_ ">>&") references ++
       [s_ "std::string"; ucamel name ++ s_ "*"; s_ "parse::Errors*"]).
  Definition serialize_entity (name : str) : entity :=
    Overload (cpp_serializer_name name) [s_ "const " ++ ucamel name ++ s_ "&"].

  (** The classes and the embeddable structures with the references of their parsers and their
      properties *)
  Definition cpp_composites : list (str * list cls * list prop) :=
    map (fun ck => (c_name (fst ck), references_of g (snd ck), c_props (fst ck)))
        (combine (g_classes g) (List.seq 0 (length (g_classes g)))) ++
    map (fun ek => (e_name (fst ek), references_of g (snd ek), e_props (fst ek)))
        (combine (g_embeds g) (List.seq (length (g_classes g)) (length (g_embeds g)))).

  (** jsoncpp_header.py:99-251: the functions which the header declares *)
  Definition cpp_header : list entity :=
    from_entity (g_name g) [] :: map (fun x => from_entity (fst (fst x)) (snd (fst x))) cpp_composites ++
    serialize_entity (g_name g) :: map (fun x => serialize_entity (fst (fst x))) cpp_composites.

  (** jsoncpp_impl.py:2788-2894 [generate]: what the source defines, in its order; the functions
      without names of the schema are given without their bodies, and without the types of
      their parameters. *)
  Definition cpp_needs_duration : bool := graph_needs g (KPrim PDuration).
  Definition cpp_needs_date : bool :=
    graph_needs g (KPrim PDate) || graph_needs g (KPrim PTime) || graph_needs g (KPrim PDatetime).
  Definition cpp_items : list (entity * option function) :=
    [(Overload (s_ "message") [], None)] ++
    (if cpp_needs_duration then [(Within (s_ "re") (s_ "kDuration"), None)] else []) ++
    flat_map (fun c => match c_id_pattern c with Some _ => [(Within (cpp_id_space c) (s_ "kID"), None)] | None => [] end) (g_classes g) ++
    (if cpp_needs_duration then [(Overload (s_ "duration_from_string") [], None)] else []) ++
    [(Overload (s_ "value_type_to_string") [], None);
     (from_entity (g_name g) [], Some cpp_parse_graph)] ++
    (if cpp_ctime && cpp_needs_date then [(Overload (s_ "tm_to_string") [], None)] else []) ++
    (if cpp_needs_duration then [(Overload (s_ "duration_to_string") [], None)] else []) ++
    map (fun x => (from_entity (fst (fst x)) (snd (fst x)), Some (cpp_parse_composite (snd (fst x)) (snd x)))) cpp_composites ++
    map (fun x => (serialize_entity (fst (fst x)), Some (cpp_serializer (fst (fst x)) (snd x)))) cpp_composites ++
    [(serialize_entity (g_name g), Some cpp_serialize_graph)].
  (** The types of the generated header types_header.py *)
  Definition cpp_types : list str := map ucamel (structure_names g).
  (** 2817-2825: the namespaces of the source; [split("::")], the rest of the current one in [cur] *)
  Fixpoint split_scope (cur x : str) : list str :=
    match x with
    | 58%N :: 58%N :: r => cur :: split_scope [] r
    | c :: r => split_scope (cur ++ [c]) r
    | [] => [cur]
    end.
  Definition cpp_spaces : list str := split_scope [] (cc_namespace cpp) ++ [s_ "jsoncpp"].
End Cpp.
