(** The automatically numbered local variables in the bodies of the generated
    functions: mapry/py/generate/__init__.py:158-177 ([AutoID]),
    mapry/go/generate/__init__.py:193-212, mapry/cpp/generate/jsoncpp_impl.py:
    478-496, and the templates which declare variables numbered by it.

    The generator functions are modelled by the list of the numbered variables
    which the code they render declares, in the order in which the text declares
    them, and by the counter of the [AutoID] object, which they increment.  The
    rest of the rendered text is not modelled here. *)
From Verif Require Import Base M_Naming M_Schema M_Dec M_Text M_PyGen M_GoGen.
From Coq Require Import String List Arith NArith ZArith Bool.
Import ListNotations.
Open Scope list_scope.

(** The counter [self._next_id] on entry; the declared variables and the counter
    on exit. *)
Definition gen := nat -> list str * nat.

(** [next_identifier]: the counter as a text; the continuation runs with the
    counter incremented. *)
Definition with_uid (k : str -> gen) : gen := fun u => k (dec_nat u) (S u).
(** Rendering a template which declares [names] and then contains [rest]. *)
Definition declare (names : list str) (rest : gen) : gen :=
  fun u => let (ds, u') := rest u in (names ++ ds, u').
Definition nothing : gen := fun u => ([], u).
Definition and_then (a b : gen) : gen :=
  fun u => let (ds, u1) := a u in let (es, u2) := b u1 in (ds ++ es, u2).

(** mapry/py/expr.py:4-19, mapry/go/expr.py and mapry/cpp/expr.py
    ([is_variable]): the regular expression ['^[a-zA-Z_][a-zA-Z_0-9]*$'] (the
    dollar also matches before a final line break). *)
Definition is_variable (expr : str) : bool :=
  py_dollar (fun s => match s with
                      | [] => false
                      | c :: r => (is_alpha c || N.eqb c underscore)
                                  && forallb (fun d => is_alpha d || is_digit d || N.eqb d underscore) r
                      end) expr.

(** The bodies of the generated functions are rendered property by property
    with one [AutoID], in the order of the properties
    (py/generate/tojsonable.py:563-574 and 665-676, fromjsonable.py:1572-1585 and
    1742-1755, go/generate/tojsonable.py:417-430, jsoncpp_impl.py:1967-1980,
    2172-2186, 2682-2695, 2768-2781). *)
Definition body (gen_property : prop -> gen) (ps : list prop) : list str :=
  fst (fold_right (fun p rest => and_then (gen_property p) rest) nothing ps 0).

(** * Python *)
Section Python.
  Variable S : py_settings.

  (** The common head of the parsing templates of
      mapry/py/generate/fromjsonable.py (for example 250-258):
      [value_{{ uid }} = {{ value_expr }}] unless the expression is a variable. *)
  Definition py_prelude (value_expr uid : str) : list str :=
    if is_variable value_expr then [] else [s_ "value_" ++ uid].

  (** fromjsonable.py:1105-1249 ([_parse_value]) with the functions it calls. *)
  Fixpoint py_parse_value (value_expr : str) (t : ty) : gen :=
    match t with
    | TArray values _ _ =>
        (* 907-1002 *)
        with_uid (fun uid =>
          declare (py_prelude value_expr uid ++
                   [s_ "target_" ++ uid; s_ "i_" ++ uid; s_ "item_" ++ uid; s_ "target_item_" ++ uid])
            (py_parse_value (s_ "item_" ++ uid) values))
    | TMap values =>
        (* 1009-1101 *)
        with_uid (fun uid =>
          declare (py_prelude value_expr uid ++
                   [s_ "target_" ++ uid; s_ "key_" ++ uid; s_ "value_" ++ uid; s_ "target_item_" ++ uid])
            (py_parse_value (s_ "value_" ++ uid) values))
    | TClass _ =>
        (* 1331-1390 *)
        with_uid (fun uid => declare (py_prelude value_expr uid ++ [s_ "target_" ++ uid]) nothing)
    | TEmbed _ =>
        (* 1393-1453 *)
        with_uid (fun uid => declare (py_prelude value_expr uid ++ [s_ "target_" ++ uid]) nothing)
    | _ =>
        (* 248-904: boolean, integer, float, string, path, date, datetime, time,
           time zone, duration *)
        with_uid (fun uid => declare (py_prelude value_expr uid) nothing)
    end.

  (** fromjsonable.py:1252-1328 ([_parse_property]) *)
  Definition py_parse_property (p : prop) : gen :=
    with_uid (fun uid =>
      declare [s_ "value_" ++ uid] (py_parse_value (s_ "value_" ++ uid) (p_type p))).

  (** mapry/py/generate/tojsonable.py:364-425 ([_serialization_expr] is not None) *)
  Definition py_has_expr (t : ty) : bool :=
    match t with TArray _ _ _ | TMap _ => false | _ => true end.

  (** tojsonable.py:251-258 *)
  Definition py_direct_copy (t : ty) : bool :=
    match t with
    | TBool | TInt _ | TFloat _ | TStr _ => true
    | TPath _ => negb (pathlib S)
    | TTimeZone => negb (pytz S)
    | _ => false
    end.

  (** tojsonable.py:429-472 ([_serialize_value]) with [_serialize_array] (204-291)
      and [_serialize_map] (294-360). *)
  Fixpoint py_serialize_value (t : ty) : gen :=
    match t with
    | TArray values _ _ =>
        with_uid (fun uid =>
          if py_direct_copy values then nothing
          else if py_has_expr values then declare [s_ "target_" ++ uid; s_ "item_" ++ uid] nothing
          else declare [s_ "target_" ++ uid; s_ "item_" ++ uid; s_ "target_item_" ++ uid]
                 (py_serialize_value values))
    | TMap values =>
        with_uid (fun uid =>
          if py_has_expr values
          then declare [s_ "target_" ++ uid; s_ "key_" ++ uid; s_ "value_" ++ uid] nothing
          else declare [s_ "target_" ++ uid; s_ "key_" ++ uid; s_ "value_" ++ uid; s_ "target_value_" ++ uid]
                 (py_serialize_value values))
    | _ => nothing
    end.

  (** The bodies of [x_from] and [serialize_x] of a composite or the graph with
      the properties [ps]. *)
  Definition py_parse_body (ps : list prop) : list str := body py_parse_property ps.
  Definition py_serialize_body (ps : list prop) : list str :=
    body (fun p => py_serialize_value (p_type p)) ps.
End Python.

(** * Go *)

(** mapry/go/generate/fromjsonable.py:1132-1253 ([_parse_value]) with the
    functions it calls.  In the template of references to instances (1384-1418),
    [ok] is declared a second time in an inner block, with the intention to hide
    the outer one; it is listed once. *)
Fixpoint go_parse_value (t : ty) : gen :=
  match t with
  | TBool | TFloat _ | TStr _ | TPath _ =>
      (* 423-467, 580-663, 666-732 *)
      with_uid (fun uid => declare [s_ "cast" ++ uid; s_ "ok" ++ uid] nothing)
  | TInt b =>
      (* 470-577 *)
      with_uid (fun uid =>
        declare ([s_ "fcast" ++ uid; s_ "ok" ++ uid] ++
                 match b_min b, b_max b with None, None => [] | _, _ => [s_ "cast" ++ uid] end) nothing)
  | TDate _ | TTime _ | TDatetime _ | TTimeZone | TDuration =>
      (* 735-799, 802-860, 863-920 *)
      with_uid (fun uid =>
        declare [s_ "cast" ++ uid; s_ "ok" ++ uid; s_ "target" ++ uid; s_ "err" ++ uid] nothing)
  | TArray values _ _ =>
      (* 923-1026 *)
      with_uid (fun uid =>
        declare [s_ "cast" ++ uid; s_ "ok" ++ uid; s_ "target" ++ uid; s_ "i" ++ uid]
          (go_parse_value values))
  | TMap values =>
      (* 1029-1129 *)
      with_uid (fun uid =>
        declare ([s_ "cast" ++ uid; s_ "ok" ++ uid; s_ "target" ++ uid; s_ "k" ++ uid] ++
                 match values with TEmbed _ => [s_ "item" ++ uid] | _ => [] end)
          (go_parse_value values))
  | TClass _ =>
      (* 1384-1446 *)
      with_uid (fun uid => declare [s_ "cast" ++ uid; s_ "ok" ++ uid; s_ "target" ++ uid] nothing)
  | TEmbed _ =>
      (* 1449-1499: an identifier is taken, but not used *)
      with_uid (fun _ => nothing)
  end.

(** go/generate/fromjsonable.py:1256-1381 ([_parse_property]) *)
Definition go_parse_property (p : prop) : gen :=
  with_uid (fun uid =>
    declare ([s_ "value" ++ uid; s_ "ok" ++ uid] ++
             (if p_optional p && negb (is_pointer_type (p_type p)) then [s_ "target" ++ uid] else []))
      (go_parse_value (p_type p))).

(** mapry/go/generate/tojsonable.py:252-317 ([_serialize_value]) with
    [_serialize_array] (164-205) and [_serialize_map] (208-249). *)
Fixpoint go_serialize_value (t : ty) : gen :=
  match t with
  | TArray values _ _ =>
      with_uid (fun uid =>
        declare [s_ "count" ++ uid; s_ "slice" ++ uid; s_ "target" ++ uid; s_ "i" ++ uid]
          (go_serialize_value values))
  | TMap values =>
      with_uid (fun uid =>
        declare [s_ "target" ++ uid; s_ "map" ++ uid; s_ "k" ++ uid; s_ "v" ++ uid]
          (go_serialize_value values))
  | _ => nothing
  end.

Definition go_parse_body (ps : list prop) : list str := body go_parse_property ps.
Definition go_serialize_body (ps : list prop) : list str :=
  body (fun p => go_serialize_value (p_type p)) ps.

(** * C++ *)
Section Cpp.
  (** [cpp.datetime_library] is date.h (otherwise ctime). *)
  Variable date_h : bool.

  (** The head of the parsing templates of mapry/cpp/generate/jsoncpp_impl.py
      (for example 502-509). *)
  Definition cpp_prelude (value_expr uid : str) : list str :=
    if is_variable value_expr then [] else [s_ "value_" ++ uid].

  Definition bounded (b : bounds) : bool :=
    match b_min b, b_max b with None, None => false | _, _ => true end.

  (** jsoncpp_impl.py:920-964 ([_PARSE_CTIME_TPL]) *)
  Definition ctime_names (uid : str) : list str := [s_ "cast_" ++ uid; s_ "tm_" ++ uid; s_ "ret_" ++ uid].

  (** jsoncpp_impl.py:1673-1823 ([_parse_value]) with the functions it calls. *)
  Fixpoint cpp_parse_value (value_expr : str) (t : ty) : gen :=
    with_uid (fun uid =>
      declare (cpp_prelude value_expr uid)
        match t with
        | TBool => nothing                                                     (* 499-547 *)
        | TInt b | TFloat b =>                                                 (* 550-744 *)
            if bounded b then declare [s_ "cast_" ++ uid; s_ "ok_" ++ uid] nothing else nothing
        | TStr (Some _) =>                                                     (* 747-823 *)
            declare [s_ "regex_" ++ uid; s_ "cast_" ++ uid; s_ "ok_" ++ uid] nothing
        | TPath (Some _) => declare [s_ "cast_" ++ uid; s_ "ok_" ++ uid] nothing   (* 826-917 *)
        | TStr None | TPath None => nothing
        | TDate _ | TDatetime _ =>                                             (* 967-1088 *)
            if date_h then declare [s_ "iss_" ++ uid] nothing else declare (ctime_names uid) nothing
        | TTime _ =>                                                           (* 1091-1178 *)
            if date_h then declare [s_ "seconds_of_day_" ++ uid; s_ "iss_" ++ uid] nothing
            else declare (ctime_names uid) nothing
        | TTimeZone =>                                                         (* 1181-1284 *)
            if date_h then declare [s_ "cast_" ++ uid] nothing else nothing
        | TDuration =>                                                         (* 1287-1354 *)
            declare [s_ "cast_" ++ uid ++ s_ "_str"; s_ "error_" ++ uid; s_ "cast_" ++ uid] nothing
        | TArray values _ _ =>                                                 (* 1357-1465 *)
            declare [s_ "target_" ++ uid; s_ "i_" ++ uid; s_ "item_" ++ uid]
              (cpp_parse_value (s_ "item_" ++ uid) values)
        | TMap values =>                                                       (* 1468-1541 *)
            declare [s_ "target_" ++ uid; s_ "it_" ++ uid]
              (cpp_parse_value (s_ "*it_" ++ uid) values)
        | TClass _ => declare [s_ "cast_" ++ uid] nothing                      (* 1544-1612 *)
        | TEmbed _ => nothing                                                  (* 1615-1670 *)
        end).

  (** jsoncpp_impl.py:1852-1909 ([_parse_property]); the value expression is
      [value["..."]] with the escaped JSON name. *)
  Definition cpp_parse_property (p : prop) : gen :=
    cpp_parse_value (s_ "value[" ++ escaped_str (p_json p) ++ s_ "]") (p_type p).

  (** jsoncpp_impl.py:2527-2597 ([_serialize_value]) with [_serialize_array]
      (2438-2480) and [_serialize_map] (2483-2524). *)
  Fixpoint cpp_serialize_value (t : ty) : gen :=
    match t with
    | TArray values _ _ =>
        with_uid (fun uid =>
          declare [s_ "target_" ++ uid; s_ "vector_" ++ uid; s_ "i_" ++ uid] (cpp_serialize_value values))
    | TMap values =>
        with_uid (fun uid =>
          declare [s_ "target_" ++ uid; s_ "map_" ++ uid; s_ "kv_" ++ uid] (cpp_serialize_value values))
    | _ => nothing
    end.

  Definition cpp_parse_body (ps : list prop) : list str := body cpp_parse_property ps.
  Definition cpp_serialize_body (ps : list prop) : list str :=
    body (fun p => cpp_serialize_value (p_type p)) ps.

  (** jsoncpp_impl.py:2650-2668: the parameter and the result variable of
      [serialize_x] for a class or embed of the name [name]. *)
  Definition cpp_serialize_fixed (name : str) : res (list str) :=
    do v <- as_variable name; Ok [v; v ++ s_ "_as_value"].
End Cpp.
