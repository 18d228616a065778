(** The names in the functions of the generated Go code which parse and serialize:
    mapry/go/generate/{fromjsonable,tojsonable,parse,types}.py.

    Of the templates only the names are kept which a function declares, mentions and assigns,
    in the blocks of the loops and branches, in the order of the evaluation.  Selectors, the
    texts and the types of the parameters are left out: the latter are looked up outside of
    the function. *)
From Coq Require Import String List Arith NArith ZArith Bool.
From Verif Require Import Base M_Naming M_Schema M_Dec M_TypeGraph M_Walk M_GoImports M_GoGen S_Scope M_Scope.
Import ListNotations.
Open Scope list_scope.
Local Open Scope nat_scope.

(** mapry/naming.py:111-145 [camel_case] and 148-181 [ucamel_case] ([M_GoGen.field]) in the
    templates, which raise if the conversion does. *)
Definition camel (name : str) : str := match camel_case name with Ok a => a | Raise _ => [] end.
Definition ucamel (name : str) : str := M_GoGen.field name.

(** The variables numbered by [AutoID], go/generate/__init__.py:193-212 *)
Definition auto (stem : string) (uid : nat) : str := s_ stem ++ dec_nat uid.
Definition let_auto (stem : string) (uid : nat) : code := Declare (Auto (auto stem uid)) (auto stem uid).
Definition use (stem : string) (uid : nat) : code := Mention (Auto (auto stem uid)) (auto stem uid).

(** [target_expr]: a numbered variable, or an expression with a selector or an index, in which
    the variables are read. *)
Inductive target_expr := Variable_ (stem : string) (uid : nat) | Inside (l : list code).
Definition store (tg : target_expr) : list code :=
  match tg with Variable_ stem uid => [Store (Auto (auto stem uid)) (auto stem uid)] | Inside l => l end.
Definition address (tg : target_expr) : list code :=
  match tg with Variable_ stem uid => [use stem uid] | Inside l => l end.

Section Go.
  Variable g : graph.

  Definition go_from (name : str) : str := ucamel name ++ s_ "FromJSONable".
  Definition go_to (name : str) : str := ucamel name ++ s_ "ToJSONable".
  (** fromjsonable.py:1525 and 1591 *)
  Definition go_registry (c : cls) : str := camel (c_plural c) ++ s_ "Registry".
  Definition go_registry_param (c : cls) : thing * str := (For "registry" (c_name c), go_registry c).
  Definition go_mention_registry (c : cls) : code := Mention (For "registry" (c_name c)) (go_registry c).

  (** go/generate/__init__.py:32-87 [type_repr] *)
  Fixpoint go_type (t : ty) : list code :=
    match t with
    | TBool => [outer (s_ "bool")]
    | TInt _ => [outer (s_ "int64")]
    | TFloat _ => [outer (s_ "float64")]
    | TStr _ | TPath _ => [outer (s_ "string")]
    | TDate _ | TTime _ | TDatetime _ | TTimeZone | TDuration => [outer pkg_time]
    | TArray values _ _ => go_type values
    | TMap values => outer (s_ "string") :: go_type values
    | TClass n | TEmbed n => [outer (ucamel n)]
    end.

  (** fromjsonable.py:687 and 1686 *)
  Definition go_pattern (p : str) : list code :=
    match pattern_variable (enumerate_patterns g) p with Some x => [outer x] | None => [] end.

  (** * Parsing: fromjsonable.py *)

  (** e.g. 432-439: an error with its reference and what it is about *)
  Definition go_report (ref about : list code) : list code :=
    [own "errors"; outer pkg_strings] ++ ref ++ [outer pkg_fmt] ++ about.

  (** 503-548 and 596-637: the branches on the bounds *)
  Definition go_bounds (b : bounds) (ref : list code) (n : nat) (set : list code) : list code :=
    match b_min b, b_max b with
    | None, None => set
    | mn, mx =>
        (if mn then [use "cast" n; Block (go_report ref [use "cast" n])] else []) ++
        (if mx then [use "cast" n; Block (go_report ref [use "cast" n])] else []) ++
        [Block set]
    end.

  Section Parse.
    (** The expression of the registry of a class: 1588-1593 and 1773-1778 *)
    Variable registry : cls -> list code.

    (** The head of the templates, e.g. 426-439: the value is cast to the type [type]. *)
    Definition go_cast (cast : string) (type : list string) (value ref : list code) (n : nat) : list code :=
      value ++ outers type ++ [let_auto cast n; let_auto "ok" n; use "ok" n; Block (go_report ref value)].

    (** 1132-1253 [_parse_value] with the functions it calls; [value], [tg] and [ref] stand for
        [value_expr], [target_expr] and [ref_parts], [n] for the counter of the identifiers. *)
    Fixpoint go_parse (t : ty) (value : list code) (tg : target_expr) (ref : list code) (n : nat) : list code * nat :=
      match t with
      | TBool =>
          (* 423-467 *)
          (go_cast "cast" ["bool"%string] value ref n ++ [Block (use "cast" n :: store tg)], S n)
      | TInt b =>
          (* 470-577 *)
          (go_cast "fcast" ["float64"%string] value ref n ++
           [use "fcast" n; outer pkg_math; Block (go_report ref [use "fcast" n]);
            use "fcast" n; Block (go_report ref [use "fcast" n]);
            Block (match b_min b, b_max b with
                   | None, None => [outer (s_ "int64"); use "fcast" n] ++ store tg
                   | _, _ => [outer (s_ "int64"); use "fcast" n; let_auto "cast" n] ++
                             go_bounds b ref n (use "cast" n :: store tg)
                   end)], S n)
      | TFloat b =>
          (* 580-663 *)
          (go_cast "cast" ["float64"%string] value ref n ++ [Block (go_bounds b ref n (use "cast" n :: store tg))], S n)
      | TStr pattern | TPath pattern =>
          (* 666-732 *)
          (go_cast "cast" ["string"%string] value ref n ++
           [Block (match pattern with
                   | None => use "cast" n :: store tg
                   | Some p => go_pattern p ++ [use "cast" n; Block (go_report ref [use "cast" n]); Block (use "cast" n :: store tg)]
                   end)], S n)
      | TDate _ | TTime _ | TDatetime _ =>
          (* 735-799 *)
          (go_cast "cast" ["string"%string] value ref n ++
           [Block [outer pkg_time; use "cast" n; let_auto "target" n; let_auto "err" n; use "err" n; outer (s_ "nil");
                   Block (go_report ref [use "cast" n]); Block (use "target" n :: store tg)]], S n)
      | TTimeZone =>
          (* 802-860 *)
          (go_cast "cast" ["string"%string] value ref n ++
           [Block [outer pkg_time; use "cast" n; let_auto "target" n; let_auto "err" n; use "err" n; outer (s_ "nil");
                   Block (go_report ref [use "cast" n; use "err" n]); Block (use "target" n :: store tg)]], S n)
      | TDuration =>
          (* 863-920 *)
          (go_cast "cast" ["string"%string] value ref n ++
           [Block [outer (s_ "durationFromString"); use "cast" n; let_auto "target" n; let_auto "err" n; use "err" n; outer (s_ "nil");
                   Block (go_report ref [use "cast" n; use "err" n]); Block (use "target" n :: store tg)]], S n)
      | TArray values mn mx =>
          (* 923-1026 *)
          let (item, n') := go_parse values [use "cast" n; use "i" n] (Inside [use "target" n; use "i" n])
                                     (ref ++ [outer pkg_strconv; use "i" n]) (S n) in
          let size := [outer (s_ "len"); use "cast" n; Block (go_report ref [outer (s_ "len"); use "cast" n])] in
          (go_cast "cast" [] value ref n ++ (if mn then size else []) ++ (if mx then size else []) ++
           [Block (outer (s_ "make") :: go_type t ++
                   [outer (s_ "len"); use "cast" n; let_auto "target" n; use "cast" n;
                    Block (let_auto "i" n :: item ++ [own "errors"]);
                    use "target" n] ++ store tg)], n')
      | TMap values =>
          (* 1029-1129 *)
          let (item, n') := go_parse values [use "cast" n; use "k" n]
                                     (match values with TEmbed _ => Variable_ "item" n | _ => Inside [use "target" n; use "k" n] end)
                                     (ref ++ [use "k" n]) (S n) in
          (go_cast "cast" ["string"%string] value ref n ++
           [Block (outer (s_ "make") :: go_type t ++
                   [let_auto "target" n; use "cast" n;
                    Block (let_auto "k" n ::
                           (match values with
                            | TEmbed _ => go_type values ++ let_auto "item" n :: item ++ [use "item" n; use "target" n; use "k" n]
                            | _ => item
                            end) ++ [own "errors"]);
                    use "target" n] ++ store tg)], n')
      | TClass name =>
          (* 1384-1446: [ok] is declared anew, next to [target] *)
          (go_cast "cast" ["string"%string] value ref n ++
           [Block (match find_class g name with Some c => registry c | None => [] end ++
                   [use "cast" n; let_auto "target" n; let_auto "ok" n; use "ok" n;
                    Block (go_report ref value); Block (use "target" n :: store tg)])], S n)
      | TEmbed name =>
          (* 1449-1499 *)
          (outer (go_from name) :: value ++ flat_map registry (embed_references g name) ++
           outer pkg_strings :: ref ++ address tg ++ [own "errors"], S n)
      end.

    (** 1256-1381 [_parse_property] *)
    Definition go_parse_property (p : prop) (n : nat) : list code * nat :=
      let intermediate := p_optional p && negb (is_pointer_type (p_type p)) in
      let (parsing, n') := go_parse (p_type p) [use "value" n] (if intermediate then Variable_ "target" n else Inside [own "target"])
                                    [own "ref"] (S n) in
      ([own "cast"; let_auto "value" n; let_auto "ok" n; use "ok" n] ++
       (if p_optional p then
          [Block (if intermediate then go_type (p_type p) ++ let_auto "target" n :: parsing ++ [use "target" n; own "target"] else parsing)]
        else [Block [own "errors"; own "ref"]; Block parsing]), n').
    (** 1570-1576 and 1748-1754: the properties one after the other *)
    Fixpoint go_parse_properties (ps : list prop) (n : nat) : list code :=
      match ps with
      | [] => []
      | p :: ps' => let (parsing, n') := go_parse_property p n in parsing ++ own "errors" :: go_parse_properties ps' n'
      end.
  End Parse.

  (** 1531-1548, 1622-1654: the checks of the arguments and the cast of the value *)
  Definition go_preconditions : list code :=
    [own "target"; outer (s_ "nil"); outer (s_ "panic"); own "errors"; outer (s_ "nil"); outer (s_ "panic");
     own "errors"; outer (s_ "panic")].
  Definition go_failed_cast : code := Block [own "errors"; own "ref"; outer pkg_fmt; own "value"].

  (** 1502-1612 [_parse_composite] *)
  Definition go_parse_composite (is_class : bool) (references : list cls) (ps : list prop) : function :=
    Function ([(Own "value", s_ "value")] ++ (if is_class then [(Own "id", s_ "id")] else []) ++
              map go_registry_param references ++
              [(Own "ref", s_ "ref"); (Own "target", s_ "target"); (Own "errors", s_ "errors")])
             (go_preconditions ++ [own "value"; outer (s_ "string")] ++
              (match ps with [] => [] | _ => [let_own "cast"] end) ++ [let_own "ok"; own "ok"; go_failed_cast] ++
              (if is_class then [own "id"; own "target"] else []) ++
              go_parse_properties (fun c => [go_mention_registry c]) ps 0).

  (** The variables for the registry of a class in the function of the graph, 1660-1665 *)
  Definition go_of_registry (role : string) (c : cls) : thing * str := (For role (c_name c), camel (c_plural c) ++ s_ role).
  Definition let_registry (role : string) (c : cls) : code := Declare (fst (go_of_registry role c)) (snd (go_of_registry role c)).
  Definition use_registry (role : string) (c : cls) : code := Mention (fst (go_of_registry role c)) (snd (go_of_registry role c)).
  Definition set_registry (role : string) (c : cls) : code := Store (fst (go_of_registry role c)) (snd (go_of_registry role c)).

  (** 1655-1705: the registry of a class is allocated *)
  Definition go_allocate (c : cls) : list code :=
    [own "ref"; let_registry "Ref" c; outer (s_ "bool"); let_registry "Ok" c; let_registry "Value" c;
     outer (s_ "string"); let_registry "Map" c;
     own "cast"; set_registry "Value" c; set_registry "Ok" c;
     use_registry "Ok" c;
     Block [use_registry "Value" c; outer (s_ "string"); set_registry "Map" c; Store (Own "ok") (s_ "ok"); own "ok";
            Block [own "errors"; use_registry "Ref" c; outer pkg_fmt; use_registry "Value" c];
            Block [outer (s_ "make"); outer (s_ "string"); outer (ucamel (c_name c)); own "target";
                   use_registry "Map" c;
                   Block (let_own "id" ::
                          (match c_id_pattern c with
                           | Some p => go_pattern p ++ [own "id"; Block [own "errors"; use_registry "Ref" c; outer pkg_fmt; own "id"];
                                                        Block [outer (ucamel (c_name c)); own "target"; own "id"]]
                           | None => [outer (ucamel (c_name c)); own "target"; own "id"]
                           end))]]].

  (** 1715-1741: the instances of a class are parsed; [value] is declared anew. *)
  Definition go_fill (c : cls) : list code :=
    [use_registry "Ok" c;
     Block [use_registry "Map" c;
            Block [let_own "id"; Declare (Own "instance value") (s_ "value");
                   outer (go_from (c_name c)); Mention (Own "instance value") (s_ "value"); own "id"; own "target";
                   outer pkg_strings; use_registry "Ref" c; own "id"; own "target"; own "id"; own "errors"; own "errors"]];
     own "errors"].

  (** 1615-1805 [_parse_graph] *)
  Definition go_parse_graph : function :=
    Function [(Own "value", s_ "value"); (Own "ref", s_ "ref"); (Own "target", s_ "target"); (Own "errors", s_ "errors")]
             (go_preconditions ++ [own "value"; outer (s_ "string"); let_own "cast"; let_own "ok"; own "ok"; go_failed_cast] ++
              flat_map go_allocate (g_classes g) ++
              (match g_classes g with [] => [] | _ => [own "errors"] end) ++
              flat_map go_fill (g_classes g) ++
              go_parse_properties (fun _ => [own "target"]) (g_props g) 0).

  (** 1809-1844 [generate]; the function [durationFromString] has no names of the schema. *)
  Definition go_parsers : list function :=
    map (fun ck => go_parse_composite true (references_of g (snd ck)) (c_props (fst ck)))
        (combine (g_classes g) (List.seq 0 (length (g_classes g)))) ++
    map (fun ek => go_parse_composite false (references_of g (snd ek)) (e_props (fst ek)))
        (combine (g_embeds g) (List.seq (length (g_classes g)) (length (g_embeds g)))) ++
    [go_parse_graph].

  (** * Serialization: tojsonable.py *)

  (** 252-317 [_serialize_value] with the functions it calls; the target is an element of a map
      or an array. *)
  Fixpoint go_serialize (t : ty) (value target : list code) (n : nat) : list code * nat :=
    match t with
    | TBool | TInt _ | TFloat _ | TStr _ | TPath _ | TTimeZone | TClass _ => (value ++ target, n)
    | TDate f | TTime f | TDatetime f =>
        (* 132-161 *)
        ((match M_GoGen.layout f with [] => [] | _ => value end) ++ target, n)
    | TDuration => (outer (s_ "durationToString") :: value ++ target, n)
    | TArray values _ _ =>
        (* 164-205 *)
        let (item, n') := go_serialize values [use "slice" n; use "i" n] [use "target" n; use "i" n] (S n) in
        (outer (s_ "len") :: value ++ let_auto "count" n :: value ++
         [let_auto "slice" n; outer (s_ "make"); use "count" n; let_auto "target" n;
          Block ([let_auto "i" n; use "i" n; use "count" n] ++ item); use "target" n] ++ target, n')
    | TMap values =>
        (* 208-249 *)
        let (item, n') := go_serialize values [use "v" n] [use "target" n; use "k" n] (S n) in
        ([outer (s_ "make"); outer (s_ "string"); let_auto "target" n] ++ value ++
         [let_auto "map" n; use "map" n; Block ([let_auto "k" n; let_auto "v" n] ++ item); use "target" n] ++ target, n')
    | TEmbed name => (outer (go_to name) :: value ++ target, n)
    end.

  (** 334-376 [_serialize_property] *)
  Definition go_serialize_property (p : prop) (n : nat) : list code * nat :=
    let (serialization, n') := go_serialize (p_type p) [own "instance"] [own "target"] n in
    (if p_optional p then [own "instance"; outer (s_ "nil"); Block serialization] else serialization, n').
  Fixpoint go_serialize_properties (ps : list prop) (n : nat) : list code :=
    match ps with
    | [] => []
    | p :: ps' => let (serialization, n') := go_serialize_property p n in serialization ++ go_serialize_properties ps' n'
    end.

  (** 379-435 [_serialize_class_or_embed]; the result is declared like a parameter. *)
  Definition go_start : list code :=
    [own "instance"; outer (s_ "nil"); outer (s_ "panic"); outer (s_ "make"); outer (s_ "string"); Store (Own "target") (s_ "target")].
  Definition go_serializer (ps : list prop) : function :=
    Function [(Own "instance", s_ "instance"); (Own "target", s_ "target")] (go_start ++ go_serialize_properties ps 0).

  (** 469-500: the registry of a class *)
  Definition go_serialize_registry (c : cls) : list code :=
    let target := s_ "target" ++ ucamel (c_plural c) in
    let instance := camel (c_name c) ++ s_ "Instance" in
    let use_target := Mention (For "target" (c_name c)) target in
    let use_instance := Mention (For "instance" (c_name c)) instance in
    [outer (s_ "len"); own "instance";
     Block [outer (s_ "make"); outer (s_ "string"); Declare (For "target" (c_name c)) target;
            own "instance";
            Block [let_own "id"; own "instance"; own "id"; Declare (For "instance" (c_name c)) instance;
                   own "id"; use_instance;
                   Block [outer pkg_fmt; own "id"; use_instance; Store (Own "err") (s_ "err")];
                   outer (go_to (c_name c)); use_instance; use_target; own "id"];
            use_target; own "target"]].

  (** 438-543 [_serialize_graph] *)
  Definition go_serialize_graph : function :=
    Function [(Own "instance", s_ "instance"); (Own "target", s_ "target"); (Own "err", s_ "err")]
             (go_start ++ [Block [own "err"; outer (s_ "nil"); Block [outer (s_ "nil"); Store (Own "target") (s_ "target")]]] ++
              go_serialize_properties (g_props g) 0 ++ flat_map go_serialize_registry (g_classes g)).

  (** 546-577 [generate] *)
  Definition go_serializers : list function :=
    map (fun c => go_serializer (c_props c)) (g_classes g) ++ map (fun e => go_serializer (e_props e)) (g_embeds g) ++
    [go_serialize_graph].

  (** * The package *)

  (** types.py:52-176; parse.py:10-66; fromjsonable.py:99-322 and 402-420; tojsonable.py:40-129:
      what the four sources declare *)
  Definition go_type_names : list str := map ucamel (map e_name (g_embeds g) ++ map c_name (g_classes g) ++ [g_name g]).
  Definition go_parse_declared : list str := map s_ ["Error"; "Errors"; "NewErrors"]%string.
  Definition go_from_declared : list str :=
    (if graph_needs g (KPrim PDuration) then [s_ "durationFromString"] else []) ++
    (match compile_regexes (enumerate_patterns g) with Some decls => map fst decls | None => [] end) ++
    map go_from (map c_name (g_classes g) ++ map e_name (g_embeds g) ++ [g_name g]).
  Definition go_to_declared : list str :=
    (if graph_needs g (KPrim PDuration) then [s_ "durationToString"] else []) ++
    map go_to (map c_name (g_classes g) ++ map e_name (g_embeds g) ++ [g_name g]).
  Definition go_declared : list str := go_type_names ++ go_parse_declared ++ go_from_declared ++ go_to_declared.
End Go.
