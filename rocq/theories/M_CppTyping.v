(** The functions of the generated C++ code which parse and serialize, with the types:
    mapry/cpp/generate/{jsoncpp_impl,jsoncpp_header,types_header}.py.

    The templates are kept as statements of S_CppTyping.v; a variable is given by what its name
    means (see M_CppScope.v and C58).  The texts of the messages are those of the templates, but
    the bounds of a float are written without their decimals, and literals next to each other
    are put together.  The functions which do not depend on the schema ([message],
    [value_type_to_string], [duration_from_string], [duration_to_string] and [tm_to_string]) and
    the methods of [parse::Errors] are given by their types. *)
From Coq Require Import String List Arith NArith ZArith Bool.
From Verif Require Import Base M_Naming M_Schema M_Dec M_TypeGraph M_GoImports S_Scope M_Scope M_GoScope M_CppScope S_Compare S_CppTyping.
Import ListNotations.
Open Scope list_scope.
Local Open Scope nat_scope.

(** The numbered variables, jsoncpp_impl.py:477-497, and the others *)
Definition cnum (stem : string) (uid : nat) : thing := Auto (auto stem uid).
Definition cvar (stem : string) (uid : nat) : cexpr := EVar (cnum stem uid).
Definition cown (role : string) : cexpr := EVar (Own role).
Definition clit (x : string) : cexpr := EText (s_ x).
Definition ccall (f : string) (args : list cexpr) : cexpr := ECall (s_ f) args.
Definition cmeth (e : cexpr) (m : string) (args : list cexpr) : cexpr := EMethod e (s_ m) args.
Definition at_errors (m : string) (args : list cexpr) : cexpr := cmeth (EDeref (cown "errors")) m args.

(** The types of the registries *)
Definition t_instances (c : cls) : ctype := CMap (CUnique (CNamed (ucamel (c_name c)))).
(** The key of a registry (mapry/naming.py:94-108, [json_plural]) *)
Definition instances_key (c : cls) : str := match json_plural (c_plural c) with Ok k => k | Raise _ => [] end.

Section Cpp.
  Variable cpp : cpp_conf.
  Variable g : graph.
  Notation ctime := (cpp_ctime cpp).

  (** cpp/generate/__init__.py:29-118 [type_repr] *)
  Fixpoint cpp_ty (t : ty) : ctype :=
    match t with
    | TBool => CBool
    | TInt _ => CInt64
    | TFloat _ => CDouble
    | TStr _ => CString
    | TPath _ => CNamed (cc_path_as cpp)
    | TDate _ => if ctime then t_tm else t_local_days
    | TTime _ => if ctime then t_tm else t_time_of_day
    | TDatetime _ => if ctime then t_tm else t_local_seconds
    | TTimeZone => if ctime then CString else CPointer true t_time_zone
    | TDuration => t_nanoseconds
    | TArray values _ _ => CVector (cpp_ty values)
    | TMap values => CMap (cpp_ty values)
    | TClass n => CPointer false (CNamed (ucamel n))
    | TEmbed n => CNamed (ucamel n)
    end.

  (** * Parsing *)

  (** cpp/expr.py:27-55 [append_strings] *)
  Definition join_parts (parts : list cexpr) : cexpr :=
    match parts with
    | [] => EText []
    | [e] => e
    | e :: rest => fold_left (fun x y => cmeth x "append" [y]) rest (EConstruct CString [e])
    end.
  (** e.g. 513-522: a message in the constant [text], and the error *)
  Definition add_error (text : string) (text_is : str) (ref : list cexpr) (about : cexpr) : list cstmt :=
    [KAuto true (Own text) (EText text_is);
     KDo (at_errors "add" [join_parts ref; ccall "message" [cown text; ccall "strlen" [cown text]; about]])].
  Definition add_got (text_is : str) (ref : list cexpr) (about : cexpr) : list cstmt := add_error "expected_but_got" text_is ref about.
  Definition type_of (value : cexpr) : cexpr := ccall "value_type_to_string" [cmeth value "type" []].
  Definition stop_if_full (s : cstmt) : cstmt := KIf (at_errors "full" []) [s] [].

  Section Parse.
    (** The expression of the registry of a class: 1960-1966 and 2163-2166 *)
    Variable instances : cls -> cexpr.

    (** The head of the templates, e.g. 499-522: the value is named, unless it is a variable
        already ([simple]), and its type is tested. *)
    Definition value_of (simple : bool) (value : cexpr) (n : nat) : cexpr := if simple then value else cvar "value_" n.
    Definition name_value (simple : bool) (value : cexpr) (n : nat) : list cstmt :=
      if simple then [] else [KReference true t_value (cnum "value_" n) value].
    Definition test_type (is_it text : string) (simple : bool) (value0 : cexpr) (ref : list cexpr) (n : nat) (rest : list cstmt) : list cstmt :=
      let value := value_of simple value0 n in
      name_value simple value0 n ++
      [KIf (ENot (cmeth value is_it [])) (add_got (s_ text) ref (type_of value)) rest].

    (** 563-608, 661-706: the bounds *)
    Definition not_ok (n : nat) : cstmt := KAssign (cvar "ok_" n) (EConstant (s_ "false")).
    Definition test_bound (op : order) (z : option Z) (ref : list cexpr) (n : nat) : list cstmt :=
      match z with
      | Some z => [KIf (ENot (EOrder op (cvar "cast_" n) (ENumber z)))
                       (add_got (s_ "Expected " ++ s_ (order_text op) ++ s_ " " ++ dec_Z z ++ s_ ", but got: ") ref (EToString (cvar "cast_" n)) ++ [not_ok n]) []]
      | None => []
      end.
    Definition let_ok (n : nat) : cstmt := KLet false CBool (cnum "ok_" n) (Some (EConstant (s_ "true"))).
    Definition bounded (as_it : string) (b : bounds) (value target : cexpr) (ref : list cexpr) (n : nat) : list cstmt :=
      match b_min b, b_max b with
      | None, None => [KAssign target (cmeth value as_it [])]
      | mn, mx =>
          [KAuto true (cnum "cast_" n) (cmeth value as_it []); let_ok n] ++
          test_bound (if b_exmin b then IsGreater else IsAtLeast) mn ref n ++ test_bound (if b_exmax b then IsLess else IsAtMost) mx ref n ++
          [KIf (cvar "ok_" n) [KAssign target (cvar "cast_" n)] []]
      end.
    (** 770-797, 858-888: the pattern; [regex] is the variable *)
    Definition matching (p : str) (regex : thing) (set : cexpr) (value target : cexpr) (ref : list cexpr) (n : nat) : list cstmt :=
      [KLet true t_regex regex (Some (EConstruct t_regex [EText p]));
       KLet true CString (cnum "cast_" n) (Some (cmeth value "asString" []));
       let_ok n;
       KIf (ENot (ccall "std::regex_match" [cvar "cast_" n; EVar regex]))
           (add_got (s_ "Expected to match " ++ p ++ s_ ", but got: ") ref (cvar "cast_" n) ++ [not_ok n]) [];
       KIf (cvar "ok_" n) [KAssign target set] []].
    (** 922-966 *)
    Definition with_strptime (f : str) (value target : cexpr) (ref : list cexpr) (n : nat) : list cstmt :=
      [KLet true CString (cnum "cast_" n) (Some (cmeth value "asString" []));
       KLet false t_tm (cnum "tm_" n) (Some (EConstruct t_tm [ENumber 0]));
       KLet false (CPointer false CChar) (cnum "ret_" n)
         (Some (ccall "strptime" [cmeth (cvar "cast_" n) "c_str" []; EText f; EAddress (cvar "tm_" n)]));
       KIf (EOr (EEqual IsEqual (cvar "ret_" n) ENull) (EEqual IsUnequal (EDeref (cvar "ret_" n)) (EChar 0)))
           (add_got (s_ "Expected to strptime " ++ f ++ s_ ", but got: ") ref (cvar "cast_" n))
           [KAssign target (cvar "tm_" n)]].
    (** 990-1010, 1114-1138: the stream; [into] is parsed, and [set] follows if it went well *)
    Definition with_stream (f : str) (into : cexpr) (set : list cstmt) (value : cexpr) (ref : list cexpr) (n : nat) : list cstmt :=
      [KLet false t_stream (cnum "iss_" n) (Some (EConstruct t_stream [cmeth value "asString" []]));
       KDo (EExtract (cvar "iss_" n) (EParse (EText f) into));
       KIf (cmeth (cvar "iss_" n) "fail" [])
           (add_got (s_ "Expected to date::parse " ++ f ++ s_ ", but got: ") ref (cmeth value "asString" [])) set].
    (** 1389-1420: the branches on the sizes *)
    Definition test_size (op : order) (which : string) (z : option Z) (value : cexpr) (ref : list cexpr) (rest : list cstmt) : list cstmt :=
      match z with
      | Some z => [KIf (EOrder op (cmeth value "size" []) (ENumber z))
                       (add_got (s_ "Expected an array of " ++ s_ which ++ s_ " size " ++ dec_Z z ++ s_ ", but got: ") ref (EToString (cmeth value "size" []))) rest]
      | None => rest
      end.

    (** 1673-1823 [_parse_value] with the functions it calls; [value0], [target] and [ref] stand
        for [value_expr], [target_expr] and [ref_parts], [n] for the counter of the identifiers. *)
    Fixpoint cparse (t : ty) (simple : bool) (value0 target : cexpr) (ref : list cexpr) (n : nat) : list cstmt * nat :=
      let value := value_of simple value0 n in
      match t with
      | TBool =>
          (* 499-524 *)
          (test_type "isBool" "Expected a bool, but got: " simple value0 ref n [KAssign target (cmeth value "asBool" [])], S n)
      | TInt b =>
          (* 551-621 *)
          (test_type "isInt64" "Expected an int64, but got: " simple value0 ref n (bounded "asInt64" b value target ref n), S n)
      | TFloat b =>
          (* 649-719 *)
          (test_type "isDouble" "Expected a double, but got: " simple value0 ref n (bounded "asDouble" b value target ref n), S n)
      | TStr pattern =>
          (* 747-798 *)
          (test_type "isString" "Expected a string, but got: " simple value0 ref n
             (match pattern with
              | None => [KAssign target (cmeth value "asString" [])]
              | Some p => matching p (cnum "regex_" n) (cvar "cast_" n) value target ref n
              end), S n)
      | TPath pattern =>
          (* 826-890: the regular expression is not numbered *)
          let set := EConstruct (CNamed (cc_path_as cpp)) [cmeth value "asString" []] in
          (test_type "isString" "Expected a string, but got: " simple value0 ref n
             (match pattern with
              | None => [KAssign target set]
              | Some p => matching p (Own "regex") set value target ref n
              end), S n)
      | TDate f | TDatetime f =>
          (* 922-1089 *)
          (test_type "isString" "Expected a string, but got: " simple value0 ref n
             (if ctime then with_strptime f value target ref n else with_stream f target [] value ref n), S n)
      | TTime f =>
          (* 1092-1177 *)
          (test_type "isString" "Expected a string, but got: " simple value0 ref n
             (if ctime then with_strptime f value target ref n
              else KLet false t_seconds (cnum "seconds_of_day_" n) None ::
                   with_stream f (cvar "seconds_of_day_" n)
                     [KAssign target (ccall "date::make_time" [cvar "seconds_of_day_" n])] value ref n), S n)
      | TTimeZone =>
          (* 1180-1284 *)
          (test_type "isString" "Expected a string, but got: " simple value0 ref n
             (if ctime then [KAssign target (cmeth value "asString" [])]
              else [KLet true CString (cnum "cast_" n) (Some (cmeth value "asString" []));
                    KTry [KAssign target (ccall "date::locate_zone" [cvar "cast_" n])] t_runtime_error (Own "e")
                      (add_got (s_ "Expected a valid IANA time zone, but got: ") ref (cvar "cast_" n))]), S n)
      | TDuration =>
          (* 1287-1353 *)
          (test_type "isString" "Expected a string, but got: " simple value0 ref n
             [KLet true CString (Auto (cast_str n)) (Some (cmeth value "asString" []));
              KLet false CString (cnum "error_" n) None;
              KLet false t_nanoseconds (cnum "cast_" n)
                (Some (ccall "duration_from_string" [EVar (Auto (cast_str n)); EAddress (cvar "error_" n)]));
              KIf (ENot (cmeth (cvar "error_" n) "empty" []))
                (add_error "invalid_duration" (s_ "Invalid duration: ") ref (cvar "error_" n))
                [KAssign target (cvar "cast_" n)]], S n)
      | TArray values mn mx =>
          (* 1356-1470 *)
          let (item, n') := cparse values true (cvar "item_" n) (cmeth (cvar "target_" n) "at" [cvar "i_" n])
                                   (ref ++ [clit "/"; EToString (cvar "i_" n)]) (S n) in
          (test_type "isArray" "Expected an array, but got: " simple value0 ref n
             (test_size IsLess "minimum" mn value ref (test_size IsGreater "maximum" mx value ref
                [KReference false (cpp_ty t) (cnum "target_" n) target;
                 KDo (cmeth (cvar "target_" n) "resize" [cmeth value "size" []]);
                 KLet false CUnsigned (cnum "i_" n) (Some (ENumber 0));
                 KEach (Some t_value) (cnum "item_" n) value (item ++ [KIncrement (cvar "i_" n); stop_if_full KBreak])])), n')
      | TMap values =>
          (* 1473-1541 *)
          let (item, n') := cparse values false (EDeref (cvar "it_" n)) (EIndex (cvar "target_" n) (cmeth (cvar "it_" n) "name" []))
                                   (ref ++ [clit "/"; cmeth (cvar "it_" n) "name" []]) (S n) in
          (test_type "isObject" "Expected an object, but got: " simple value0 ref n
             [KReference false (cpp_ty t) (cnum "target_" n) target;
              KFor t_iterator (cnum "it_" n) (cmeth value "begin" []) (EEqual IsUnequal (cvar "it_" n) (cmeth value "end" []))
                (item ++ [stop_if_full KBreak])], n')
      | TClass name =>
          (* 1544-1612 *)
          let registry := match find_class g name with Some c => instances c | None => ENull end in
          (test_type "isString" "Expected a string, but got: " simple value0 ref n
             [KReference true CString (cnum "cast_" n) (cmeth value "asString" []);
              KIf (EEqual IsEqual (cmeth registry "count" [cvar "cast_" n]) (ENumber 0))
                (add_error "reference_not_found" (s_ "Reference to an instance of class " ++ name ++ s_ " not found: ") ref (cvar "cast_" n))
                [KAssign target (cmeth (cmeth registry "at" [cvar "cast_" n]) "get" [])]], S n)
      | TEmbed name =>
          (* 1615-1670 *)
          (name_value simple value0 n ++
           [KDo (ECall (cpp_from name)
              (value :: map instances (embed_references g name) ++ [join_parts ref; EAddress target; cown "errors"]))], S n)
      end.

    (** 1826-1909 [_parse_property]; the member is called in lower case (cpp/naming.py:8-22). *)
    Definition target_member (p : prop) : cexpr := EMember (EDeref (cown "target")) (lower (p_name p)).
    Definition is_compound (t : ty) : bool := match t with TArray _ _ _ | TMap _ | TEmbed _ => true | _ => false end.
    Definition cparse_property (p : prop) (n : nat) : list cstmt * nat :=
      let (parsing, n') := cparse (p_type p) false (EIndex (cown "value") (EText (p_json p)))
                                  (if p_optional p && is_compound (p_type p) then EDeref (target_member p) else target_member p)
                                  [cown "ref"; EText (s_ "/" ++ p_json p)] n in
      let is_member := cmeth (cown "value") "isMember" [EText (p_json p)] in
      ((if p_optional p then
          [KIf is_member ((if is_compound (p_type p) then [KDo (cmeth (target_member p) "emplace" [])] else []) ++ parsing) []]
        else [KIf (ENot is_member) [KDo (at_errors "add" [cown "ref"; EText (s_ "Property is missing: " ++ p_json p)])] parsing]), n').
    (** 1938-1943 and 2138-2143: the properties one after the other *)
    Fixpoint cparse_properties (ps : list prop) (n : nat) : list cstmt :=
      match ps with
      | [] => []
      | p :: ps' => let (parsing, n') := cparse_property p n in parsing ++ stop_if_full (KReturn None) :: cparse_properties ps' n'
      end.
  End Parse.

  (** 1925-1937 and 2000-2016: the value must be an object. *)
  Definition test_object : cstmt :=
    KIf (ENot (cmeth (cown "value") "isObject" []))
      (add_got (s_ "Expected an object, but got: ") [cown "ref"] (type_of (cown "value")) ++ [KReturn None]) [].

  (** The parameters of the functions which parse: jsoncpp_header.py:110-140 and
      jsoncpp_impl.py:1914-1923, 1991-1995 *)
  Definition parser_params (name : str) (references : list cls) : list (thing * param) :=
    [(Own "value", ByReference t_value)] ++ map (fun c => (For "registry" (c_name c), ByReference (t_instances c))) references ++
    [(Own "ref", ByValue CString); (Own "target", ByValue (CPointer false (CNamed (ucamel name)))); (Own "errors", ByValue (CPointer false t_parse_errors))].

  (** 1912-1986 [_parse_composite] *)
  Definition cparse_composite (name : str) (references : list cls) (ps : list prop) : cfunction :=
    CFunction (cpp_from name) (parser_params name references) CVoid
      (test_object :: cparse_properties (fun c => EVar (For "registry" (c_name c))) ps 0).

  (** The registry of a class in the graph (types_header.py:344-346, cpp/naming.py:8-22) *)
  Definition registry_member (e : cexpr) (c : cls) : cexpr := EMember e (lower (c_plural c)).
  Definition target_registry (c : cls) : cexpr := registry_member (EDeref (cown "target")) c.
  (** 2023: the variable with the reference to the registry of a class *)
  Definition ref_var (c : cls) : thing := For "ref" (c_name c).
  Definition it_name : cexpr := cmeth (cown "it") "name" [].
  Definition id_constant (c : cls) : str := cpp_id_space c ++ s_ "::kID".

  (** 2017-2081: the registry of a class is allocated *)
  Definition new_instance (c : cls) : list cstmt :=
    [KAuto false (Own "instance") (EMakeUnique (ucamel (c_name c)));
     KAssign (EMember (EDeref (cown "instance")) (s_ "id")) it_name;
     KAssign (EIndex (target_registry c) it_name) (EMove (cown "instance"))].
  Definition callocate (c : cls) : list cstmt :=
    let ref := EVar (ref_var c) in
    let key := s_ "/" ++ instances_key c in
    [KLet false CString (ref_var c) None;
     KDo (cmeth ref "reserve" [EAdd (cmeth (cown "ref") "size" []) (ENumber (Z.of_nat (length key)))]);
     KAppend ref (cown "ref");
     KAppend ref (EText key);
     KIf (cmeth (cown "value") "isMember" [EText (instances_key c)])
       [KReference true t_value (Own "obj") (EIndex (cown "value") (EText (instances_key c)));
        KIf (ENot (cmeth (cown "obj") "isObject" []))
          (add_got (s_ "Expected an object, but got: ") [ref] (type_of (cown "obj")))
          [KFor t_iterator (Own "it") (cmeth (cown "obj") "begin" []) (EEqual IsUnequal (cown "it") (cmeth (cown "obj") "end" []))
             (match c_id_pattern c with
              | Some p =>
                  [KIf (ENot (ccall "std::regex_match" [it_name; EConstant (id_constant c)]))
                     (add_got (s_ "Expected ID to match " ++ p ++ s_ ", but got: ") [ref] it_name ++ [stop_if_full KBreak])
                     (new_instance c)]
              | None => new_instance c
              end)]] []].

  (** 2095-2136: the instances of a class are parsed *)
  Definition cfill (references : list cls) (c : cls) : list cstmt :=
    let ref := EVar (ref_var c) in
    let instance_ref := cown "instance_ref" in
    let ref_size := EAdd (cmeth ref "size" []) (ENumber 1) in
    [KDo (cmeth instance_ref "clear" []);
     KAppend instance_ref ref;
     KAppend instance_ref (EChar 47);
     KIf (cmeth (cown "value") "isMember" [EText (instances_key c)])
       [KReference true t_value (Own "obj") (EIndex (cown "value") (EText (instances_key c)));
        KFor t_iterator (Own "it") (cmeth (cown "obj") "begin" []) (EEqual IsUnequal (cown "it") (cmeth (cown "obj") "end" []))
          [KDo (cmeth instance_ref "reserve" [EAdd ref_size (cmeth it_name "size" [])]);
           KDo (cmeth instance_ref "resize" [ref_size]);
           KDo (cmeth instance_ref "append" [it_name]);
           KLet false (CPointer false (CNamed (ucamel (c_name c)))) (Own "instance")
             (Some (cmeth (cmeth (target_registry c) "at" [it_name]) "get" []));
           KDo (ECall (cpp_from (c_name c))
             (EDeref (cown "it") :: map target_registry references ++ [instance_ref; cown "instance"; cown "errors"]));
           stop_if_full KBreak]] [];
     stop_if_full (KReturn None)].

  (** 1989-2189 [_parse_graph] *)
  Definition cparse_graph : cfunction :=
    CFunction (cpp_from (g_name g)) (parser_params (g_name g) []) CVoid
      ([KIf (EEqual IsEqual (cown "errors") ENull) [KThrow (EConstruct t_invalid_argument [clit "Unexpected null errors"])] [];
        KIf (ENot (at_errors "empty" [])) [KThrow (EConstruct t_invalid_argument [clit "Unexpected non-empty errors"])] [];
        test_object] ++
       flat_map callocate (g_classes g) ++
       (match g_classes g with
        | [] => []
        | _ => [KIf (ENot (at_errors "empty" [])) [KReturn None] []; KLet false CString (Own "instance_ref") None]
        end) ++
       flat_map (fun ck => cfill (references_of g (snd ck)) (fst ck))
                (combine (g_classes g) (List.seq 0 (length (g_classes g)))) ++
       cparse_properties target_registry (g_props g) 0).

  (** * Serialization *)

  (** 2527-2606 [_serialize_value] with the functions it calls *)
  Fixpoint cserialize (t : ty) (value target : cexpr) (n : nat) : list cstmt * nat :=
    match t with
    | TBool | TInt _ | TFloat _ | TStr _ => ([KAssign target value], n)
    | TPath _ => ([KAssign target (cmeth value "string" [])], n)
    | TDate f | TDatetime f =>
        (* 2321-2372 *)
        ([KAssign target (match f with
                          | [] => EText []
                          | _ => if ctime then ccall "tm_to_string" [value; EText f] else EFormat (EText f) value
                          end)], n)
    | TTime f =>
        (* 2375-2413 *)
        ([KAssign target (match f with
                          | [] => EText []
                          | _ => if ctime then ccall "tm_to_string" [value; EText f] else EFormat (EText f) (cmeth value "to_duration" [])
                          end)], n)
    | TTimeZone => ([KAssign target (if ctime then value else cmeth (EDeref value) "name" [])], n)      (* 2416-2435 *)
    | TDuration => ([KAssign target (ccall "duration_to_string" [value])], n)
    | TArray values _ _ =>
        (* 2438-2483 *)
        let (item, n') := cserialize values (EIndex (cvar "vector_" n) (cvar "i_" n)) (EIndex (cvar "target_" n) (cvar "i_" n)) (S n) in
        ([KLet false t_value (cnum "target_" n) (Some (EConstant (s_ "Json::arrayValue")));
          KAutoReference (cnum "vector_" n) value;
          KFor CInt (cnum "i_" n) (ENumber 0) (EOrder IsLess (cvar "i_" n) (cmeth (cvar "vector_" n) "size" [])) item;
          KAssign target (EMove (cvar "target_" n))], n')
    | TMap values =>
        (* 2485-2524 *)
        let (item, n') := cserialize values (EMember (cvar "kv_" n) (s_ "second"))
                                     (EIndex (cvar "target_" n) (EMember (cvar "kv_" n) (s_ "first"))) (S n) in
        ([KLet false t_value (cnum "target_" n) (Some (EConstant (s_ "Json::objectValue")));
          KAutoReference (cnum "map_" n) value;
          KEach None (cnum "kv_" n) (cvar "map_" n) item;
          KAssign target (EMove (cvar "target_" n))], n')
    | TClass _ => ([KAssign target (EMember (EDeref value) (s_ "id"))], n)
    | TEmbed name => ([KAssign target (ECall (cpp_serializer_name name) [value])], n)
    end.

  (** 2609-2650 [_serialize_property], as called in 2689-2698 and 2771-2781: the member is
      called as in the schema. *)
  Definition cserialize_property (p : prop) (n : nat) : list cstmt * nat :=
    let value := EMember (cown "structure") (p_name p) in
    let (serialization, n') := cserialize (p_type p) (if p_optional p then EDeref value else value)
                                          (EIndex (cown "result") (EText (p_json p))) n in
    (if p_optional p then [KIf value serialization []] else serialization, n').
  Fixpoint cserialize_properties (ps : list prop) (n : nat) : list cstmt :=
    match ps with
    | [] => []
    | p :: ps' => let (serialization, n') := cserialize_property p n in serialization ++ cserialize_properties ps' n'
    end.

  (** The parameter: jsoncpp_header.py:179-181, jsoncpp_impl.py:2656-2658 and 2709-2710 *)
  Definition serializer_params (name : str) : list (thing * param) := [(Own "structure", ByReference (CNamed (ucamel name)))].
  Definition let_result : cstmt := KLet false t_value (Own "result") None.
  Definition return_empty : list cstmt := [KReturn (Some (EConstant (s_ "Json::objectValue")))].
  (** 2653-2703 [_serialize_class_or_embed] *)
  Definition cserializer (name : str) (ps : list prop) : cfunction :=
    CFunction (cpp_serializer_name name) (serializer_params name) t_value
      (match ps with
       | [] => return_empty
       | _ => let_result :: cserialize_properties ps 0 ++ [KReturn (Some (cown "result"))]
       end).

  (** 2717-2750: the registry of a class *)
  Definition cserialize_registry (c : cls) : list cstmt :=
    let registry := registry_member (cown "structure") c in
    let values := For "value" (c_name c) in
    let instance_id := EMember (EDeref (cown "instance")) (s_ "id") in
    let lengths := [cmeth (cown "id") "size" []; ccall "strlen" [cown "but_got"]; cmeth instance_id "size" []] in
    [KIf (ENot (cmeth registry "empty" []))
       [KLet false t_value values None;
        KEach None (Own "kv") registry
          [KReference true CString (Own "id") (EMember (cown "kv") (s_ "first"));
           KLet false (CPointer true (CNamed (ucamel (c_name c)))) (Own "instance")
             (Some (cmeth (EMember (cown "kv") (s_ "second")) "get" []));
           KIf (EEqual IsUnequal (cown "id") instance_id)
             [KAuto true (Own "expected") (EText (s_ "Expected the class instance of " ++ ucamel (c_name c) ++ s_ "to have the ID "));
              KAuto true (Own "but_got") (clit ", but got: ");
              KLet false CString (Own "msg") None;
              KDo (cmeth (cown "msg") "reserve" [fold_left EAdd lengths (ccall "strlen" [cown "expected"])]);
              KAppend (cown "msg") (cown "expected"); KAppend (cown "msg") (cown "id");
              KAppend (cown "msg") (cown "but_got"); KAppend (cown "msg") instance_id;
              KThrow (EConstruct t_invalid_argument [cown "msg"])] [];
           KAssign (EIndex (EVar values) instance_id) (ECall (cpp_serializer_name (c_name c)) [EDeref (cown "instance")])];
        KAssign (EIndex (cown "result") (EText (instances_key c))) (EVar values)] []].

  (** 2706-2785 [_serialize_graph] *)
  Definition cserialize_graph : cfunction :=
    CFunction (cpp_serializer_name (g_name g)) (serializer_params (g_name g)) t_value
      (match g_props g, g_classes g with
       | [], [] => return_empty
       | _, _ => let_result :: cserialize_properties (g_props g) 0 ++
                 flat_map cserialize_registry (g_classes g) ++ [KReturn (Some (cown "result"))]
       end).

  (** * The source *)

  (** types_header.py:232-272 [_property_fields]: the members are called as in the schema. *)
  Definition cmember (p : prop) : str * ctype := (p_name p, if p_optional p then COptional (cpp_ty (p_type p)) else cpp_ty (p_type p)).
  (** 275-362: the structures *)
  Definition cpp_structs : list (str * list (str * ctype)) :=
    map (fun e => (ucamel (e_name e), map cmember (e_props e))) (g_embeds g) ++
    map (fun c => (ucamel (c_name c), (s_ "id", CString) :: map cmember (c_props c))) (g_classes g) ++
    [(ucamel (g_name g), map cmember (g_props g) ++ map (fun c => (lower (c_plural c), t_instances c)) (g_classes g))].

  (** jsoncpp_impl.py:2788-2894 [generate]: the functions which depend on the schema, *)
  Definition cpp_functions : list cfunction :=
    [cparse_graph] ++
    map (fun x => cparse_composite (fst (fst x)) (snd (fst x)) (snd x)) (cpp_composites g) ++
    map (fun x => cserializer (fst (fst x)) (snd x)) (cpp_composites g) ++
    [cserialize_graph].
  (** and the others, by their types: 143-166, 215-437, 440-473, 2192-2232, 2235-2318 *)
  Definition cpp_helpers : list (str * csignature) :=
    [(s_ "message", CSig [ByValue CText; ByValue CUnsigned; ByValue CString] CString);
     (s_ "value_type_to_string", CSig [ByValue t_value_type] CString)] ++
    (if cpp_needs_duration g then
       [(s_ "duration_from_string", CSig [ByReference CString; ByValue (CPointer false CString)] t_nanoseconds);
        (s_ "duration_to_string", CSig [ByReference t_nanoseconds] CString)] else []) ++
    (if ctime && cpp_needs_date g then [(s_ "tm_to_string", CSig [ByReference t_tm; ByValue CText] CString)] else []).
  (** 169-212 [_regex_constants]: those of the patterns of the identifiers *)
  Definition cpp_constants : list (str * ctype) :=
    flat_map (fun c => match c_id_pattern c with Some _ => [(id_constant c, t_regex)] | None => [] end) (g_classes g).
  Definition cpp_source : source :=
    Source cpp_structs (cpp_helpers ++ map (fun f => (cf_name f, csignature_of f)) cpp_functions) cpp_constants.
End Cpp.
