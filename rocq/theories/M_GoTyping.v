(** The functions of the generated Go code which parse and serialize, with the types:
    mapry/go/generate/{fromjsonable,tojsonable,types}.py.

    The templates are kept as statements of S_GoTyping.v; a variable is given by what its name
    means (see M_GoScope.v and C58).  The texts of the messages are those of the templates, but
    the bounds of a float are written without their decimals.  The functions
    [durationFromString] and [durationToString], which do not depend on the schema, and the
    methods of [Errors] are given by their types. *)
From Coq Require Import String List Arith NArith ZArith Bool.
From Verif Require Import Base M_Naming M_Schema M_Dec M_TypeGraph M_Walk M_GoImports M_GoGen S_Scope M_Scope M_GoScope S_Compare S_GoTyping.
Import ListNotations.
Open Scope list_scope.
Local Open Scope nat_scope.

(** The numbered variables, go/generate/__init__.py:193-212, and the others *)
Definition num_var (stem : string) (uid : nat) : thing := Auto (auto stem uid).
Definition vr (stem : string) (uid : nat) : gexpr := XVar (num_var stem uid).
Definition ow (role : string) : gexpr := XVar (Own role).
Definition lit (x : string) : gexpr := XText (s_ x).
Definition call (f : string) (args : list gexpr) : gexpr := XCall (s_ f) args.
Definition meth (e : gexpr) (m : string) (args : list gexpr) : gexpr := XMethod e (s_ m) args.

(** go/generate/__init__.py:32-87 [type_repr] *)
Fixpoint go_ty (t : ty) : gtype :=
  match t with
  | TBool => GBool
  | TInt _ => GInt64
  | TFloat _ => GFloat64
  | TStr _ | TPath _ => GString
  | TDate _ | TTime _ | TDatetime _ => t_time
  | TTimeZone => GPointer t_location
  | TDuration => t_duration
  | TArray values _ _ => GSlice (go_ty values)
  | TMap values => GMap (go_ty values)
  | TClass n => GPointer (GNamed (ucamel n))
  | TEmbed n => GNamed (ucamel n)
  end.
(** types.py:33-50 [_property_type_repr] *)
Definition go_field_ty (p : prop) : gtype :=
  if p_optional p then if is_pointer_type (p_type p) then go_ty (p_type p) else GPointer (go_ty (p_type p)) else go_ty (p_type p).

(** The types of the registries, of the JSON objects and arrays, and of the container of errors *)
Definition t_registry (c : cls) : gtype := GMap (GPointer (GNamed (ucamel (c_name c)))).
Definition t_object : gtype := GMap GAny.
Definition t_array : gtype := GSlice GAny.
Definition t_errors : gtype := GPointer (GNamed (s_ "Errors")).

Section Go.
  Variable g : graph.

  (** fromjsonable.py:687 and 1686 *)
  Definition pattern_matches (p : str) (e : gexpr) : gexpr :=
    match pattern_variable (enumerate_patterns g) p with
    | Some x => meth (XGlobal x) "MatchString" [e]
    | None => XNil
    end.

  (** * Parsing: fromjsonable.py *)

  (** e.g. 432-439: an error with its reference and what it is about *)
  Definition joined (ref : list gexpr) : gexpr := call "strings.Join" [XStrings ref; lit "/"].
  Definition complain (ref : gexpr) (text : str) (about : list gexpr) : gstmt :=
    SDo (meth (ow "errors") "Add" [ref; call "fmt.Sprintf" (XText text :: about)]).
  Definition report (ref : list gexpr) (text : str) (about : list gexpr) : gstmt := complain (joined ref) text about.
  Definition when_full (s : gstmt) : gstmt := SIf (meth (ow "errors") "Full" []) [s] [].

  (** 503-548 and 596-637: the branches on the bounds; [verb] is [%d] or [%f]. *)
  Definition check_bound (op : order) (verb : string) (z : option Z) (ref : list gexpr) (n : nat) (rest : list gstmt) : list gstmt :=
    match z with
    | Some z => [SIf (XNot (XOrder op (vr "cast" n) (XNumber z)))
                     [report ref (s_ "expected " ++ s_ (order_text op) ++ s_ " " ++ dec_Z z ++ s_ ", but got: " ++ s_ verb) [vr "cast" n]] rest]
    | None => rest
    end.
  Definition check_bounds (verb : string) (b : bounds) (ref : list gexpr) (n : nat) (set : list gstmt) : list gstmt :=
    check_bound (if b_exmin b then IsGreater else IsAtLeast) verb (b_min b) ref n
      (check_bound (if b_exmax b then IsLess else IsAtMost) verb (b_max b) ref n set).
  (** 969-999: the branches on the sizes *)
  Definition check_size (op : order) (which : string) (z : option Z) (ref : list gexpr) (n : nat) (rest : list gstmt) : list gstmt :=
    match z with
    | Some z => [SIf (XOrder op (XLen (vr "cast" n)) (XNumber z))
                     [report ref (s_ "expected an array of " ++ s_ which ++ s_ " size " ++ dec_Z z ++ s_ ", but got: %d") [XLen (vr "cast" n)]] rest]
    | None => rest
    end.

  Section Parse.
    (** The expression of the registry of a class: 1588-1593 and 1773-1778 *)
    Variable registry : cls -> gexpr.

    (** The head of the templates, e.g. 426-439: the value is cast to the type [type]. *)
    Definition parse_as (cast : string) (type : gtype) (text : string) (value : gexpr) (ref : list gexpr) (n : nat) (rest : list gstmt) : list gstmt :=
      [SDefine [Some (num_var cast n); Some (num_var "ok" n)] (XAssert value type);
       SIf (XNot (vr "ok" n)) [report ref (s_ text) [value]] rest].

    (** 1132-1253 [_parse_value] with the functions it calls; [value], [tg] and [ref] stand for
        [value_expr], [target_expr] and [ref_parts], [n] for the counter of the identifiers. *)
    Fixpoint parse_code (t : ty) (value tg : gexpr) (ref : list gexpr) (n : nat) : list gstmt * nat :=
      match t with
      | TBool =>
          (* 423-467 *)
          (parse_as "cast" GBool "expected a bool, but got: %T" value ref n [SAssign [tg] (vr "cast" n)], S n)
      | TInt b =>
          (* 470-577 *)
          (parse_as "fcast" GFloat64 "expected a float64, but got: %T" value ref n
             [SIf (XEqual IsUnequal (vr "fcast" n) (call "math.Trunc" [vr "fcast" n]))
                  [report ref (s_ "expected a whole number, but got: %f") [vr "fcast" n]]
                  [SIf (XOr (XOrder IsAtLeast (vr "fcast" n) (XNumber (2 ^ 63))) (XOrder IsLess (vr "fcast" n) (XNumber (- 2 ^ 63))))
                       [report ref (s_ "expected the value to fit into int64, but got an overflow: %f") [vr "fcast" n]]
                       (match b_min b, b_max b with
                        | None, None => [SAssign [tg] (XConvert GInt64 (vr "fcast" n))]
                        | _, _ => SDefine [Some (num_var "cast" n)] (XConvert GInt64 (vr "fcast" n)) ::
                                  check_bounds "%d" b ref n [SAssign [tg] (vr "cast" n)]
                        end)]], S n)
      | TFloat b =>
          (* 580-663 *)
          (parse_as "cast" GFloat64 "expected a float64, but got: %T" value ref n
             (check_bounds "%f" b ref n [SAssign [tg] (vr "cast" n)]), S n)
      | TStr pattern | TPath pattern =>
          (* 666-732 *)
          (parse_as "cast" GString "expected a string, but got: %T" value ref n
             (match pattern with
              | None => [SAssign [tg] (vr "cast" n)]
              | Some p => [SIf (XNot (pattern_matches p (vr "cast" n)))
                               [report ref (s_ "expected to match " ++ p ++ s_ ", but got: %s") [vr "cast" n]]
                               [SAssign [tg] (vr "cast" n)]]
              end), S n)
      | TDate f | TTime f | TDatetime f =>
          (* 735-799 *)
          (parse_as "cast" GString "expected a string, but got: %T" value ref n
             [SDefine [Some (num_var "target" n); Some (num_var "err" n)] (call "time.Parse" [XText (layout f); vr "cast" n]);
              SIf (XEqual IsUnequal (vr "err" n) XNil)
                  [report ref (s_ "expected layout " ++ layout f ++ s_ ", got: %s") [vr "cast" n]]
                  [SAssign [tg] (vr "target" n)]], S n)
      | TTimeZone =>
          (* 802-860 *)
          (parse_as "cast" GString "expected a string, but got: %T" value ref n
             [SDefine [Some (num_var "target" n); Some (num_var "err" n)] (call "time.LoadLocation" [vr "cast" n]);
              SIf (XEqual IsUnequal (vr "err" n) XNil)
                  [report ref (s_ "failed to load location from %#v: %s") [vr "cast" n; meth (vr "err" n) "Error" []]]
                  [SAssign [tg] (vr "target" n)]], S n)
      | TDuration =>
          (* 863-920 *)
          (parse_as "cast" GString "expected a string, but got: %T" value ref n
             [SDefine [Some (num_var "target" n); Some (num_var "err" n)] (call "durationFromString" [vr "cast" n]);
              SIf (XEqual IsUnequal (vr "err" n) XNil)
                  [report ref (s_ "failed to parse duration from %#v: %s") [vr "cast" n; meth (vr "err" n) "Error" []]]
                  [SAssign [tg] (vr "target" n)]], S n)
      | TArray values mn mx =>
          (* 923-1026 *)
          let (item, n') := parse_code values (XIndex (vr "cast" n) (vr "i" n)) (XIndex (vr "target" n) (vr "i" n))
                                       (ref ++ [call "strconv.Itoa" [vr "i" n]]) (S n) in
          (parse_as "cast" t_array "expected a []interface{}, but got: %T" value ref n
             (check_size IsLess "minimum" mn ref n (check_size IsGreater "maximum" mx ref n
                [SDefine [Some (num_var "target" n)] (XMake (go_ty t) (Some (XLen (vr "cast" n))));
                 SRange (num_var "i" n) None (vr "cast" n) (item ++ [when_full SBreak]);
                 SAssign [tg] (vr "target" n)])), n')
      | TMap values =>
          (* 1029-1129 *)
          let (item, n') := parse_code values (XIndex (vr "cast" n) (vr "k" n))
                                       (match values with TEmbed _ => vr "item" n | _ => XIndex (vr "target" n) (vr "k" n) end)
                                       (ref ++ [vr "k" n]) (S n) in
          (parse_as "cast" t_object "expected a map[string]interface{}, but got: %T" value ref n
             [SDefine [Some (num_var "target" n)] (XMake (go_ty t) None);
              SRange (num_var "k" n) None (vr "cast" n)
                ((match values with
                  | TEmbed _ => SVar (num_var "item" n) (go_ty values) :: item ++
                                [SAssign [XIndex (vr "target" n) (vr "k" n)] (vr "item" n)]
                  | _ => item
                  end) ++ [when_full SBreak]);
              SAssign [tg] (vr "target" n)], n')
      | TClass name =>
          (* 1384-1446: [ok] is declared anew, next to [target] *)
          (parse_as "cast" GString "expected a string, but got: %T" value ref n
             [SDefine [Some (num_var "target" n); Some (num_var "ok" n)]
                (XIndex (match find_class g name with Some c => registry c | None => XNil end) (vr "cast" n));
              SIf (XNot (vr "ok" n))
                  [report ref (s_ "reference to an instance of class " ++ ucamel name ++ s_ " not found: %s") [value]]
                  [SAssign [tg] (vr "target" n)]], S n)
      | TEmbed name =>
          (* 1449-1499 *)
          ([SDo (XCall (go_from name) (value :: map registry (embed_references g name) ++ [joined ref; XAddr tg; ow "errors"]))], S n)
      end.

    (** 1256-1381 [_parse_property] *)
    Definition parse_property_code (p : prop) (n : nat) : list gstmt * nat :=
      let field := XField (ow "target") (ucamel (p_name p)) in
      let intermediate := p_optional p && negb (is_pointer_type (p_type p)) in
      let (parsing, n') := parse_code (p_type p) (vr "value" n) (if intermediate then vr "target" n else field)
                                      [ow "ref"; XText (p_json p)] (S n) in
      ([SDefine [Some (num_var "value" n); Some (num_var "ok" n)] (XIndex (ow "cast") (XText (p_json p)));
        if p_optional p then
          SIf (vr "ok" n)
              (if intermediate then SVar (num_var "target" n) (go_ty (p_type p)) :: parsing ++ [SAssign [field] (XAddr (vr "target" n))] else parsing)
              []
        else SIf (XNot (vr "ok" n))
                 [SDo (meth (ow "errors") "Add" [ow "ref"; XText (s_ "property is missing: " ++ p_json p)])]
                 parsing], n').
    (** 1570-1576 and 1748-1754: the properties one after the other *)
    Fixpoint parse_properties_code (ps : list prop) (n : nat) : list gstmt :=
      match ps with
      | [] => []
      | p :: ps' => let (parsing, n') := parse_property_code p n in parsing ++ when_full SReturn :: parse_properties_code ps' n'
      end.
  End Parse.

  (** 1531-1548, 1622-1654: the checks of the arguments and the cast of the value *)
  Definition preconditions (cast : option thing) : list gstmt :=
    [SIf (XEqual IsEqual (ow "target") XNil) [SDo (call "panic" [lit "unexpected nil target"])] [];
     SIf (XEqual IsEqual (ow "errors") XNil) [SDo (call "panic" [lit "unexpected nil errors"])] [];
     SIf (XNot (meth (ow "errors") "Empty" [])) [SDo (call "panic" [lit "unexpected non-empty errors"])] [];
     SDefine [cast; Some (Own "ok")] (XAssert (ow "value") t_object);
     SIf (XNot (ow "ok"))
         [complain (ow "ref") (s_ "expected a map[string]interface{}, but got: %T") [ow "value"]; SReturn] []].

  (** 1502-1612 [_parse_composite] *)
  Definition parse_composite_code (name : str) (is_class : bool) (references : list cls) (ps : list prop) : gfunction :=
    GFunction (go_from name)
      ([(Own "value", GAny)] ++ (if is_class then [(Own "id", GString)] else []) ++
       map (fun c => (For "registry" (c_name c), t_registry c)) references ++
       [(Own "ref", GString); (Own "target", GPointer (GNamed (ucamel name))); (Own "errors", t_errors)]) []
      (preconditions (match ps with [] => None | _ => Some (Own "cast") end) ++
       (if is_class then [SAssign [XField (ow "target") (s_ "ID")] (ow "id")] else []) ++
       parse_properties_code (fun c => XVar (For "registry" (c_name c))) ps 0 ++ [SReturn]).

  (** The variables for the registry of a class in the function of the graph, 1660-1665 *)
  Definition of_registry (role : string) (c : cls) : gexpr := XVar (For role (c_name c)).
  Definition registry_field (e : gexpr) (c : cls) : gexpr := XField e (ucamel (c_plural c)).
  (** The key of a registry (mapry/naming.py:94-108, [json_plural]) *)
  Definition registry_key (c : cls) : str := match json_plural (c_plural c) with Ok k => k | Raise _ => [] end.

  (** 1655-1705: the registry of a class is allocated *)
  Definition allocate_code (c : cls) : list gstmt :=
    let instance := SAssign [XIndex (registry_field (ow "target") c) (ow "id")] (XNew (ucamel (c_name c))) in
    [SDefine [Some (For "Ref" (c_name c))] (XConcat (ow "ref") (XText (s_ "/" ++ registry_key c)));
     SVar (For "Ok" (c_name c)) GBool;
     SVar (For "Value" (c_name c)) GAny;
     SVar (For "Map" (c_name c)) t_object;
     SAssign [of_registry "Value" c; of_registry "Ok" c] (XIndex (ow "cast") (XText (registry_key c)));
     SIf (of_registry "Ok" c)
       [SAssign [of_registry "Map" c; ow "ok"] (XAssert (of_registry "Value" c) t_object);
        SIf (XNot (ow "ok"))
          [complain (of_registry "Ref" c) (s_ "expected a map[string]interface{}, but got: %T") [of_registry "Value" c]]
          [SAssign [registry_field (ow "target") c] (XMake (t_registry c) None);
           SRange (Own "id") None (of_registry "Map" c)
             (match c_id_pattern c with
              | Some p => [SIf (XNot (pattern_matches p (ow "id")))
                               [complain (of_registry "Ref" c) (s_ "expected ID to match " ++ p ++ s_ ", but got: %s") [ow "id"]]
                               [instance]]
              | None => [instance]
              end)]] []].

  (** 1715-1741: the instances of a class are parsed; [value] is declared anew. *)
  Definition fill_code (ck : cls * nat) : list gstmt :=
    let (c, k) := ck in
    [SIf (of_registry "Ok" c)
       [SRange (Own "id") (Some (Own "instance value")) (of_registry "Map" c)
          [SDo (XCall (go_from (c_name c))
             ([ow "instance value"; ow "id"] ++ map (registry_field (ow "target")) (references_of g k) ++
              [joined [of_registry "Ref" c; ow "id"]; XIndex (registry_field (ow "target") c) (ow "id"); ow "errors"]));
           when_full SBreak]] [];
     when_full SReturn].

  (** The classes and the embeds in the order of [M_Scope.references_of] *)
  Definition numbered_classes : list (cls * nat) := combine (g_classes g) (List.seq 0 (length (g_classes g))).
  Definition numbered_embeds : list (embed * nat) := combine (g_embeds g) (List.seq (length (g_classes g)) (length (g_embeds g))).

  (** 1615-1805 [_parse_graph] *)
  Definition parse_graph_code : gfunction :=
    GFunction (go_from (g_name g))
      [(Own "value", GAny); (Own "ref", GString); (Own "target", GPointer (GNamed (ucamel (g_name g)))); (Own "errors", t_errors)] []
      (preconditions (Some (Own "cast")) ++
       flat_map allocate_code (g_classes g) ++
       (match g_classes g with [] => [] | _ => [SIf (XNot (meth (ow "errors") "Empty" [])) [SReturn] []] end) ++
       flat_map fill_code numbered_classes ++
       parse_properties_code (registry_field (ow "target")) (g_props g) 0 ++ [SReturn]).

  (** 1809-1844 [generate] *)
  Definition parser_functions : list gfunction :=
    map (fun ck => parse_composite_code (c_name (fst ck)) true (references_of g (snd ck)) (c_props (fst ck))) numbered_classes ++
    map (fun ek => parse_composite_code (e_name (fst ek)) false (references_of g (snd ek)) (e_props (fst ek))) numbered_embeds ++
    [parse_graph_code].

  (** * Serialization: tojsonable.py *)

  (** 252-317 [_serialize_value] with the functions it calls *)
  Fixpoint serialize_code (t : ty) (value target : gexpr) (n : nat) : list gstmt * nat :=
    match t with
    | TBool | TInt _ | TFloat _ | TStr _ | TPath _ => ([SAssign [target] value], n)
    | TDate f | TTime f | TDatetime f =>
        (* 132-161 *)
        ([SAssign [target] (match layout f with [] => XText [] | l => meth value "Format" [XText l] end)], n)
    | TTimeZone => ([SAssign [target] (meth value "String" [])], n)
    | TDuration => ([SAssign [target] (call "durationToString" [value])], n)
    | TArray values _ _ =>
        (* 164-205 *)
        let (item, n') := serialize_code values (XIndex (vr "slice" n) (vr "i" n)) (XIndex (vr "target" n) (vr "i" n)) (S n) in
        ([SDefine [Some (num_var "count" n)] (XLen value);
          SDefine [Some (num_var "slice" n)] value;
          SDefine [Some (num_var "target" n)] (XMake t_array (Some (vr "count" n)));
          SFor (num_var "i" n) (XOrder IsLess (vr "i" n) (vr "count" n)) item;
          SAssign [target] (vr "target" n)], n')
    | TMap values =>
        (* 208-249 *)
        let (item, n') := serialize_code values (vr "v" n) (XIndex (vr "target" n) (vr "k" n)) (S n) in
        ([SDefine [Some (num_var "target" n)] (XMake t_object None);
          SDefine [Some (num_var "map" n)] value;
          SRange (num_var "k" n) (Some (num_var "v" n)) (vr "map" n) item;
          SAssign [target] (vr "target" n)], n')
    | TClass _ => ([SAssign [target] (XField value (s_ "ID"))], n)
    | TEmbed name => ([SAssign [target] (XCall (go_to name) [XAddr value])], n)
    end.

  (** 334-376 [_serialize_property], as called in 395-410 and 516-535 *)
  Definition serialize_property_code (p : prop) (n : nat) : list gstmt * nat :=
    let field := XField (ow "instance") (ucamel (p_name p)) in
    let value := if p_optional p && negb (is_pointer_type (p_type p)) then XDeref field else field in
    let (serialization, n') := serialize_code (p_type p) value (XIndex (ow "target") (XText (p_json p))) n in
    (if p_optional p then [SIf (XEqual IsUnequal field XNil) serialization []] else serialization, n').
  Fixpoint serialize_properties_code (ps : list prop) (n : nat) : list gstmt :=
    match ps with
    | [] => []
    | p :: ps' => let (serialization, n') := serialize_property_code p n in serialization ++ serialize_properties_code ps' n'
    end.

  (** 379-435 [_serialize_class_or_embed] *)
  Definition serialize_start : list gstmt :=
    [SIf (XEqual IsEqual (ow "instance") XNil) [SDo (call "panic" [lit "unexpected nil instance"])] [];
     SAssign [ow "target"] (XMake t_object None)].
  Definition serializer_code (name : str) (ps : list prop) : gfunction :=
    GFunction (go_to name) [(Own "instance", GPointer (GNamed (ucamel name)))] [(Own "target", t_object)]
      (serialize_start ++ serialize_properties_code ps 0 ++ [SReturn]).

  (** 469-500: the registry of a class *)
  Definition serialize_registry_code (c : cls) : list gstmt :=
    let instance := For "instance" (c_name c) in
    let target := For "target" (c_name c) in
    [SIf (XOrder IsGreater (XLen (registry_field (ow "instance") c)) (XNumber 0))
       [SDefine [Some target] (XMake t_object None);
        SRange (Own "id") None (registry_field (ow "instance") c)
          [SDefine [Some instance] (XIndex (registry_field (ow "instance") c) (ow "id"));
           SIf (XEqual IsUnequal (ow "id") (XField (XVar instance) (s_ "ID")))
             [SAssign [ow "err"] (call "fmt.Errorf"
                [XText (s_ "expected the instance of " ++ ucamel (c_name c) ++ s_ " to have the ID %s according to the registry, but got: %s");
                 ow "id"; XField (XVar instance) (s_ "ID")]);
              SReturn] [];
           SAssign [XIndex (XVar target) (ow "id")] (XCall (go_to (c_name c)) [XVar instance])];
        SAssign [XIndex (ow "target") (XText (registry_key c))] (XVar target)] []].

  (** 438-543 [_serialize_graph] *)
  Definition serialize_graph_code : gfunction :=
    GFunction (go_to (g_name g)) [(Own "instance", GPointer (GNamed (ucamel (g_name g))))] [(Own "target", t_object); (Own "err", GError)]
      (serialize_start ++ [SDefer [SIf (XEqual IsUnequal (ow "err") XNil) [SAssign [ow "target"] XNil] []]] ++
       serialize_properties_code (g_props g) 0 ++ flat_map serialize_registry_code (g_classes g) ++ [SReturn]).

  (** 546-577 [generate] *)
  Definition serializer_functions : list gfunction :=
    map (fun c => serializer_code (c_name c) (c_props c)) (g_classes g) ++
    map (fun e => serializer_code (e_name e) (e_props e)) (g_embeds g) ++ [serialize_graph_code].

  (** * The package *)

  (** types.py:52-176 *)
  Definition field_of (p : prop) : str * gtype := (ucamel (p_name p), go_field_ty p).
  Definition go_structs : list (str * list (str * gtype)) :=
    map (fun e => (ucamel (e_name e), map field_of (e_props e))) (g_embeds g) ++
    map (fun c => (ucamel (c_name c), (s_ "ID", GString) :: map field_of (c_props c))) (g_classes g) ++
    [(ucamel (g_name g), map (fun c => (ucamel (c_plural c), t_registry c)) (g_classes g) ++ map field_of (g_props g))].
  (** fromjsonable.py:150-161 and 1832-1833, tojsonable.py:46-53 and 561-562 *)
  Definition go_duration_functions : list (str * signature) :=
    if graph_needs g (KPrim PDuration) then
      [(s_ "durationFromString", Sig [GString] None [t_duration; GError]); (s_ "durationToString", Sig [t_duration] None [GString])]
    else [].
  Definition go_functions : list gfunction := parser_functions ++ serializer_functions.
  (** fromjsonable.py:393-420 *)
  Definition go_variables : list (str * gtype) :=
    match compile_regexes (enumerate_patterns g) with
    | Some decls => map (fun d => (fst d, GPointer t_regexp)) decls
    | None => []
    end.
  Definition go_package (vet : bool) : package :=
    Package vet go_structs (go_duration_functions ++ map (fun f => (gf_name f, signature_of f)) go_functions) go_variables.
End Go.
