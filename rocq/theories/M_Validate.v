(** The validation and the parsing of a schema given as a JSON value:
    mapry/schemas.py, mapry/validation.py and mapry/parse.py:1-364. *)
From Verif Require Import Base M_Naming M_Schema M_Dec M_Strftime.
From Coq Require Import String List Arith NArith ZArith Bool Floats.SpecFloat.
Import ListNotations.
Open Scope list_scope.

(** * JSON schemas

    The part of JSON schema (draft 4) which mapry/schemas.py uses.  A [pattern]
    is represented by the set of texts in which [re.search] finds it. *)
Inductive jschema :=
| SAny
| SString (pattern : str -> bool)
| SEnum (values : list str)                       (** of type "string" *)
| SBoolean
| SInteger (minimum : option Z)
| SNumber
| SArray (items : jschema)
| SObject (properties : list (str * jschema)) (required : list str)
    (additional : option jschema).                (** [None]: no additional properties *)

(** [jsonschema.validate(instance=v, schema=s)] raises no ValidationError. *)
Fixpoint jvalid (s : jschema) (v : jval) : bool :=
  match s, v with
  | SAny, _ => true
  | SString p, JStr x => p x
  | SEnum vs, JStr x => mem x vs
  | SBoolean, JBool _ => true
  | SInteger m, JInt z => match m with Some b => (b <=? z)%Z | None => true end
  | SNumber, (JInt _ | JFloat _) => true
  | SArray i, JArr l => forallb (jvalid i) l
  | SObject ps req add, JObj l =>
      (fix properties_ok (ps : list (str * jschema)) : bool :=
         match ps with
         | [] => true
         | (k, s') :: r => match lookup k l with Some x => jvalid s' x | None => true end && properties_ok r
         end) ps
      && forallb (fun k => mem k (keys l)) req
      && forallb (fun e => mem (fst e) (keys ps) ||
                           match add with Some a => jvalid a (snd e) | None => false end) l
  | _, _ => false
  end.

(** The paths of the errors which [jsonschema] finds in [v]; [jsonschema.validate] raises one of
    these errors.  The path of a missing member, and of one which must not be there, is that of
    the object. *)
Fixpoint jblame (s : jschema) (v : jval) : list (list str) :=
  match s, v with
  | SArray i, JArr l =>
      (fix of_items (n : nat) (l : list jval) : list (list str) :=
         match l with
         | [] => []
         | x :: r => map (cons (dec_nat n)) (jblame i x) ++ of_items (S n) r
         end) 0 l
  | SObject ps req add, JObj l =>
      (fix of_properties (ps : list (str * jschema)) : list (list str) :=
         match ps with
         | [] => []
         | (k, s') :: r => match lookup k l with Some x => map (cons k) (jblame s' x) | None => [] end ++ of_properties r
         end) ps
      ++ flat_map (fun k => if mem k (keys l) then [] else [[]]) req
      ++ flat_map (fun e => if mem (fst e) (keys ps) then []
                            else match add with Some a => map (cons (fst e)) (jblame a (snd e)) | None => [[]] end) l
  | _, _ => if jvalid s v then [] else [[]]
  end.

(** ** The patterns of mapry/schemas.py *)

Definition any_string : jschema := SString (fun _ => true).

(** schemas.py:19, 171, 212: [^[a-z]+.*\.$] *)
Definition description_re : str -> bool :=
  py_dollar (fun s => match s with c :: _ => is_lower c | [] => false end
                      && negb (existsb (N.eqb 10) s) && N.eqb (last s 0%N) 46).
(** [[a-zA-Z][a-zA-Z0-9_]*] on the whole text. *)
Definition name_part (s : str) : bool :=
  match s with c :: r => is_alpha c && forallb is_word r | [] => false end.
(** The text cut at each [::] (from the left). *)
Fixpoint split_colons (acc s : str) : list str :=
  match s with
  | [] => [rev acc]
  | c :: r =>
      match r with
      | d :: r' => if N.eqb c 58 && N.eqb d 58 then rev acc :: split_colons [] r' else split_colons (c :: acc) r
      | [] => [rev (c :: acc)]
      end
  end.
(** schemas.py:65-66: [name_part]s joined by [::], from [^] to [$] *)
Definition namespace_re : str -> bool := py_dollar (fun s => forallb name_part (split_colons [] s)).
(** schemas.py:131-132: [name_part]s joined by dots, from [^] to [$] *)
Definition module_re : str -> bool := py_dollar (fun s => forallb name_part (split_on 46%N s)).
(** schemas.py:100, 151: [^[ \t]*$] *)
Definition indention_re : str -> bool := py_dollar (forallb (fun c => N.eqb c 32 || N.eqb c 9)).
(** schemas.py:115: [^[a-zA-Z][a-zA-Z0-9_]*] with no [$] *)
Definition package_re (s : str) : bool := match s with c :: _ => is_alpha c | [] => false end.
(** schemas.py:237: [[A-Za-z][A-Za-z_0-9]*], not anchored *)
Definition type_re (s : str) : bool := existsb is_alpha s.

(** schemas.py:226-256 *)
Definition PROPERTY : jschema :=
  SObject [(s_ "description", any_string); (s_ "type", SString type_re);
           (s_ "json", any_string); (s_ "optional", SBoolean)]
          [s_ "description"; s_ "type"] (Some SAny).
Definition PROPERTIES : jschema := SObject [] [] (Some PROPERTY).
(** schemas.py:57-106 *)
Definition CPP : jschema :=
  SObject [(s_ "namespace", SString namespace_re);
           (s_ "path_as", SEnum [s_ "std::filesystem::path"; s_ "boost::filesystem::path"]);
           (s_ "optional_as", SEnum [s_ "boost::optional"; s_ "std::optional"; s_ "std::experimental::optional"]);
           (s_ "datetime_library", SEnum [s_ "ctime"; s_ "date.h"]);
           (s_ "indention", SString indention_re)]
          [s_ "namespace"; s_ "path_as"; s_ "optional_as"; s_ "datetime_library"] None.
(** schemas.py:107-120 *)
Definition GO : jschema := SObject [(s_ "package", SString package_re)] [s_ "package"] None.
(** schemas.py:121-156 *)
Definition PY : jschema :=
  SObject [(s_ "module_name", SString module_re);
           (s_ "path_as", SEnum [s_ "str"; s_ "pathlib.Path"]);
           (s_ "timezone_as", SEnum [s_ "str"; s_ "pytz.timezone"]);
           (s_ "indention", SString indention_re)]
          [s_ "module_name"; s_ "path_as"; s_ "timezone_as"] None.
(** schemas.py:157-197 *)
Definition CLASS : jschema :=
  SObject [(s_ "name", SString class_name_re); (s_ "description", SString description_re);
           (s_ "plural", SString class_name_re); (s_ "id_pattern", any_string);
           (s_ "properties", PROPERTIES)]
          [s_ "name"; s_ "description"] None.
(** schemas.py:198-225; the pattern of the name has no [$], so only the first letter counts. *)
Definition EMBED : jschema :=
  SObject [(s_ "name", SString initial_upper); (s_ "description", SString description_re);
           (s_ "properties", PROPERTIES)]
          [s_ "name"; s_ "description"] None.
(** schemas.py:3-56, 258 *)
Definition GRAPH : jschema :=
  SObject [(s_ "name", SString graph_name_re); (s_ "description", SString description_re);
           (s_ "cpp", CPP); (s_ "go", GO); (s_ "py", PY);
           (s_ "classes", SArray CLASS); (s_ "embeds", SArray EMBED); (s_ "properties", PROPERTIES)]
          [s_ "name"; s_ "description"] None.

(** schemas.py:260-516: the schemas of the types; they allow additional
    properties. *)
Definition base_keys : list (str * jschema) := [(s_ "type", any_string); (s_ "description", any_string)].
Definition number_keys (n : jschema) : list (str * jschema) :=
  [(s_ "minimum", n); (s_ "exclusive_minimum", SBoolean); (s_ "maximum", n); (s_ "exclusive_maximum", SBoolean)].
Definition an_object : jschema := SObject [] [] (Some SAny).

(** schemas.py:518-531, [TYPE_TO_SCHEMA]: the properties and the required ones. *)
Definition TYPE_TO_SCHEMA : list (str * (list (str * jschema) * list str)) :=
  [(s_ "boolean", (base_keys, []));
   (s_ "integer", (base_keys ++ number_keys (SInteger None), []));
   (s_ "float", (base_keys ++ number_keys SNumber, []));
   (s_ "string", (base_keys ++ [(s_ "pattern", any_string)], []));
   (s_ "path", (base_keys ++ [(s_ "pattern", any_string)], []));
   (s_ "date", (base_keys ++ [(s_ "format", any_string)], []));
   (s_ "time", (base_keys ++ [(s_ "format", any_string)], []));
   (s_ "datetime", (base_keys ++ [(s_ "format", any_string)], []));
   (s_ "time_zone", (base_keys, []));
   (s_ "duration", (base_keys, []));
   (s_ "array", (base_keys ++ [(s_ "values", an_object); (s_ "minimum_size", SInteger (Some 0%Z));
                               (s_ "maximum_size", SInteger (Some 0%Z))], [s_ "values"]));
   (s_ "map", (base_keys ++ [(s_ "values", an_object)], [s_ "values"]))].

(** * Validation *)

(** The errors: [mapry.validation.SchemaError].  The texts are represented by the
    branch which composes them.  An error which comes from [jsonschema] has the paths of
    all the errors which that may report. *)
Inductive skind :=
| EJsonSchema (paths : list (list str)) | EFirstKey | ESecondKey | EDuplicateName (name : str) | EIdPattern | EReservedId
| EPropertyName (name : str) | EInvalidType | ETypeSchema (paths : list (list str)) | EUnexpectedKey (key : str)
| EMinOverMax | EEmptyRange | EPattern | EFormat | ESizes | EPlural (property cls : str).
Record serr := SErr { se_ref : str; se_kind : skind }.
(** The references which the error may have: if it comes from [jsonschema], the path of the
    error there follows (validation.py:125-129 and 624-630). *)
Definition se_refs (e : serr) : list str :=
  match se_kind e with
  | EJsonSchema paths => map (fun p => join (s_ "/") (se_ref e :: p)) paths
  | ETypeSchema paths => map (fun p => se_ref e ++ s_ "/" ++ join (s_ "/") p) paths
  | _ => [se_ref e]
  end.

(** [mapping[key]] *)
Definition get (k : str) (l : list (str * jval)) : res jval :=
  match lookup k l with Some v => Ok v | None => Raise KeyError end.
(** The operations on a text, a list or a mapping; the JSON schemas make sure that
    the value is of the type. *)
Definition text (v : jval) : res str := match v with JStr s => Ok s | _ => Raise TypeError end.
Definition items (v : jval) : res (list jval) := match v with JArr l => Ok l | _ => Raise TypeError end.
Definition fields (v : jval) : res (list (str * jval)) := match v with JObj l => Ok l | _ => Raise TypeError end.

Fixpoint mapM {A B} (f : A -> res B) (l : list A) : res (list B) :=
  match l with
  | [] => Ok []
  | x :: r => do y <- f x; do ys <- mapM f r; Ok (y :: ys)
  end.
Fixpoint number_from {A} (i : nat) (l : list A) : list (nat * A) :=
  match l with [] => [] | x :: r => (i, x) :: number_from (S i) r end.
(** [enumerate(l)] *)
Definition enumerate {A} (l : list A) : list (nat * A) := number_from 0 l.

(** [mapping[key]], if the key is there, for the keys "classes" and "embeds". *)
Definition elements (k : str) (l : list (str * jval)) : res (list jval) :=
  match lookup k l with Some v => items v | None => Ok [] end.

(** ["{}/classes/{}".format(ref, i)] *)
Definition nth_ref (ref kind : str) (i : nat) : str := ref ++ s_ "/" ++ kind ++ s_ "/" ++ dec_nat i.

(** A finite Python number as [n * 2 ^ e]. *)
Definition finite_num (v : jval) : option (Z * Z) :=
  match v with
  | JInt z => Some (z, 0%Z)
  | JFloat (S754_zero _) => Some (0%Z, 0%Z)
  | JFloat (S754_finite s m e) => Some ((if s then Zneg m else Zpos m), e)
  | _ => None
  end.
(** Comparison of Python numbers, which is exact; [None] if one is not a number. *)
Definition num_cmp (a b : jval) : option comparison :=
  match a, b with
  | JFloat S754_nan, _ | _, JFloat S754_nan => None
  | JFloat (S754_infinity s), JFloat (S754_infinity t) =>
      Some (match s, t with true, false => Lt | false, true => Gt | _, _ => Eq end)
  | JFloat (S754_infinity s), _ =>
      match finite_num b with Some _ => Some (if s then Lt else Gt) | None => None end
  | _, JFloat (S754_infinity t) =>
      match finite_num a with Some _ => Some (if t then Gt else Lt) | None => None end
  | _, _ =>
      match finite_num a, finite_num b with
      | Some (n, e), Some (m, f) =>
          let g := Z.min e f in Some (Z.compare (n * 2 ^ (e - g)) (m * 2 ^ (f - g)))
      | _, _ => None
      end
  end.
Definition num_gt (a b : jval) : bool := match num_cmp a b with Some Gt => true | _ => false end.
Definition num_eq (a b : jval) : bool := match num_cmp a b with Some Eq => true | _ => false end.

(** [bool(mapping[key])] if the key is there, else [False]; a boolean. *)
Definition flag (k : str) (l : list (str * jval)) : bool :=
  match lookup k l with Some (JBool b) => b | _ => false end.

Definition NONCOMPOSITE : list str :=
  map s_ ["boolean"; "integer"; "float"; "string"; "path"; "date"; "time"; "datetime";
          "duration"; "time_zone"; "array"; "map"]%string.

(** Applies [f] to the value of the key: [mapping[key]] for a recursive call. *)
Section OnKey.
  Context {A : Type} (f : jval -> A) (missing : A) (k : str).
  Fixpoint on_key (l : list (str * jval)) : A :=
    match l with
    | [] => missing
    | (k', x) :: r => if str_eqb k k' then f x else on_key r
    end.
End OnKey.

Section Validate.
  Variable re_ok : str -> bool.    (** [re.compile] raises no exception *)
  Variable ordered : bool.         (** the mappings are [OrderedDict]s *)

  (** validation.py:134-186 ([_validate_integer]) and 189-237 ([_validate_float]) *)
  Definition validate_range (l : list (str * jval)) (ref : str) : option serr :=
    match lookup (s_ "minimum") l, lookup (s_ "maximum") l with
    | Some minimum, Some maximum =>
        if num_gt minimum maximum then Some (SErr ref EMinOverMax)
        else
          let excl_min := flag (s_ "exclusive_minimum") l in
          let excl_max := flag (s_ "exclusive_maximum") l in
          if excl_min && excl_max then
            if num_eq minimum maximum then Some (SErr ref EEmptyRange) else None
          else if negb excl_min && excl_max then
            if num_eq minimum maximum then Some (SErr ref EEmptyRange) else None
          else if excl_min && negb excl_max then
            if num_eq minimum maximum then Some (SErr ref EEmptyRange) else None
          else None
    | _, _ => None
    end.

  (** validation.py:240-255 and 258-273, [_validate_string], [_validate_path] *)
  Definition validate_pattern (l : list (str * jval)) (ref : str) : option serr :=
    match lookup (s_ "pattern") l with
    | Some (JStr p) => if re_ok p then None else Some (SErr (ref ++ s_ "/pattern") EPattern)
    | Some _ => Some (SErr (ref ++ s_ "/pattern") EPattern)
    | None => None
    end.

  (** validation.py:276-337, [_validate_date], [_validate_time],
      [_validate_datetime]; the format is a text by the JSON schema. *)
  Definition validate_format (valid : str -> bool) (l : list (str * jval)) (ref : str) : option serr :=
    match lookup (s_ "format") l with
    | Some (JStr f) => if valid f then None else Some (SErr (ref ++ s_ "/format") EFormat)
    | _ => None
    end.

  (** validation.py:351-360, the first part of [_validate_array]; a size is an
      integer by the JSON schema. *)
  Definition validate_sizes (l : list (str * jval)) (ref : str) : option serr :=
    match lookup (s_ "minimum_size") l, lookup (s_ "maximum_size") l with
    | Some minimum_size, Some maximum_size =>
        if num_gt minimum_size maximum_size then Some (SErr (ref ++ s_ "/minimum_size") ESizes) else None
    | _, _ => None
    end.

  (** validation.py:405-421: the order of the keys in a property definition *)
  Definition validate_key_order (l : list (str * jval)) (ref : str) : res (option serr) :=
    match keys l with
    | [] => Raise IndexError
    | k0 :: r =>
        if negb (str_eqb k0 (s_ "type")) then Ok (Some (SErr (ref ++ s_ "/type") EFirstKey))
        else if mem (s_ "description") (keys l) then
          match r with
          | [] => Raise IndexError
          | k1 :: _ => if str_eqb k1 (s_ "description") then Ok None
                       else Ok (Some (SErr (ref ++ s_ "/description") ESecondKey))
          end
        else Ok None
    end.

  (** validation.py:438-457: the expected keys *)
  Definition expected_keys (top : bool) (type_keys : list str) : list str :=
    [s_ "type"; s_ "description"] ++
    (if top then [s_ "description"; s_ "type"; s_ "json"; s_ "optional"] else []) ++ type_keys.
  Definition unexpected (expected : list str) (l : list (str * jval)) : option str :=
    find (fun k => negb (mem k expected)) (keys l).

  (** validation.py:388-501, [_validate_type_recursively], with [_validate_array]
      (340-366) and [_validate_map] (369-385); [top] is [depth == 0]. *)
  Fixpoint validate_type (top : bool) (types : list str) (ref : str) (v : jval) : res (option serr) :=
    match v with
    | JObj l =>
        do oerr <- (if top && ordered then validate_key_order l ref else Ok None);
        match oerr with
        | Some e => Ok (Some e)
        | None =>
            do t <- get (s_ "type") l;
            match t with
            | JArr _ | JObj _ => Raise TypeError       (* unhashable *)
            | JStr type =>
                if negb (mem type types) then Ok (Some (SErr (ref ++ s_ "/type") EInvalidType))
                else
                  let sch := lookup type TYPE_TO_SCHEMA in
                  let type_keys := match sch with Some (ps, _) => keys ps | None => [] end in
                  if match sch with Some (ps, req) => jvalid (SObject ps req (Some SAny)) v | None => true end
                  then
                    match unexpected (expected_keys top type_keys) l with
                    | Some key => Ok (Some (SErr ref (EUnexpectedKey key)))
                    | None =>
                        let values :=
                          on_key (fun x => validate_type false types (ref ++ s_ "/values") x)
                            (Raise KeyError) (s_ "values") l in
                        if str_eqb type (s_ "boolean") then Ok None
                        else if str_eqb type (s_ "integer") then Ok (validate_range l ref)
                        else if str_eqb type (s_ "float") then Ok (validate_range l ref)
                        else if str_eqb type (s_ "string") then Ok (validate_pattern l ref)
                        else if str_eqb type (s_ "path") then Ok (validate_pattern l ref)
                        else if str_eqb type (s_ "date") then Ok (validate_format date_format_valid l ref)
                        else if str_eqb type (s_ "time") then Ok (validate_format time_format_valid l ref)
                        else if str_eqb type (s_ "datetime") then Ok (validate_format datetime_format_valid l ref)
                        else if str_eqb type (s_ "duration") then Ok None
                        else if str_eqb type (s_ "time_zone") then Ok None
                        else if str_eqb type (s_ "array") then
                          match validate_sizes l ref with
                          | Some e => Ok (Some e)
                          | None => values
                          end
                        else if str_eqb type (s_ "map") then values
                        else if mem type NONCOMPOSITE then Raise AssertionError
                        else Ok None
                    end
                  else
                    (* validation.py:112-131 *)
                    Ok (Some (SErr ref (ETypeSchema (match sch with
                                                     | Some (ps, req) => jblame (SObject ps req (Some SAny)) v
                                                     | None => []
                                                     end))))
            | _ => Ok (Some (SErr (ref ++ s_ "/type") EInvalidType))
            end
        end
    | _ => Raise TypeError
    end.

  (** validation.py:32-67, [_validate_names]: the names and the errors *)
  Definition name_errors (ref kind : str) (names : list str) (objs : list jval) : res (list str * list serr) :=
    fold_left (fun (acc : res (list str * list serr)) (ix : nat * jval) =>
                 do st <- acc;
                 do l <- fields (snd ix);
                 do n <- get (s_ "name") l;
                 do name <- text n;
                 let (names, errs) := st in
                 Ok (names ++ [name],
                     errs ++ (if mem name names
                              then [SErr (nth_ref ref kind (fst ix) ++ s_ "/name") (EDuplicateName name)] else [])))
              (enumerate objs) (Ok (names, [])).
  Definition validate_names (l : list (str * jval)) (ref : str) : res (list str * list serr) :=
    do n <- get (s_ "name") l;
    do name <- text n;
    do classes <- elements (s_ "classes") l;
    do st <- name_errors ref (s_ "classes") [name] classes;
    do embeds <- elements (s_ "embeds") l;
    do st' <- name_errors ref (s_ "embeds") (fst st) embeds;
    Ok (fst st', snd st ++ snd st').

  (** validation.py:70-101, [_validate_class] *)
  Definition validate_class (ref : str) (l : list (str * jval)) : res (list serr) :=
    let errs := match lookup (s_ "id_pattern") l with
                | Some (JStr p) => if re_ok p then [] else [SErr (ref ++ s_ "/id_pattern") EIdPattern]
                | Some _ => [SErr (ref ++ s_ "/id_pattern") EIdPattern]
                | None => []
                end in
    match lookup (s_ "properties") l with
    | Some ps =>
        do fs <- fields ps;
        Ok (errs ++ if mem (s_ "id") (keys fs) then [SErr (ref ++ s_ "/properties") EReservedId] else [])
    | None => Ok errs
    end.

  (** validation.py:518-548, [_validate_properties] *)
  Definition validate_properties (types : list str) (ref : str) (l : list (str * jval)) : res (list serr) :=
    match lookup (s_ "properties") l with
    | Some ps =>
        do fs <- fields ps;
        do ess <- mapM (fun np : str * jval =>
                          let (name, p) := np in
                          do e <- validate_type true types (ref ++ s_ "/properties/" ++ name) p;
                          Ok ((if property_re name then [] else [SErr (ref ++ s_ "/properties") (EPropertyName name)])
                              ++ match e with Some e => [e] | None => [] end)) fs;
        Ok (concat ess)
    | None => Ok []
    end.

  (** Insertion sort of the keys by code points ([sorted]). *)
  Fixpoint str_le (a b : str) : bool :=
    match a, b with
    | [], _ => true
    | _, [] => false
    | x :: a', y :: b' => if N.ltb x y then true else if N.eqb x y then str_le a' b' else false
    end.
  Fixpoint insert_item {A} (e : str * A) (l : list (str * A)) : list (str * A) :=
    match l with
    | [] => [e]
    | f :: r => if str_le (fst e) (fst f) then e :: l else f :: insert_item e r
    end.
  Definition sort_items {A} (l : list (str * A)) : list (str * A) := fold_right insert_item [] l.
  (** [list(d.items())] for an [OrderedDict], [sorted(d.items())] otherwise: the keys
      are distinct. *)
  Definition item_list {A} (l : list (str * A)) : list (str * A) := if ordered then l else sort_items l.

  (** validation.py:563-587: the registries of the classes *)
  Definition registry_of_class (l : list (str * jval)) : res (option (str * str)) :=
    do name_plural <-
      (match lookup (s_ "plural") l with
       | Some p => do t <- text p; Ok (Some t)
       | None =>
           match lookup (s_ "name") l with
           | None => Ok None                        (* continue *)
           | Some n => do t <- text n; Ok (Some (plural t))
           end
       end);
    match name_plural with
    | None => Ok None
    | Some p =>
        do k <- json_plural p;
        do n <- get (s_ "name") l;
        do name <- text n;
        Ok (Some (k, name))
    end.

  (** validation.py:551-604, [_validate_plurals] *)
  Definition validate_plurals (l : list (str * jval)) (ref : str) : res (list serr) :=
    match lookup (s_ "classes") l, lookup (s_ "properties") l with
    | Some cs, Some ps =>
        do cls <- items cs;
        do regs <- mapM (fun c => do fs <- fields c; registry_of_class fs) cls;
        let table := fold_left (fun t r => match r with Some (k, n) => upsert k n t | None => t end) regs [] in
        do fs <- fields ps;
        Ok (flat_map (fun k => match lookup k table with
                               | Some c => [SErr (ref ++ s_ "/" ++ k) (EPlural k c)]
                               | None => []
                               end) (keys (item_list fs)))
    | _, _ => Ok []
    end.

  (** validation.py:637-656 *)
  Definition validate_top (l : list (str * jval)) (ref : str) : res (list serr) :=
    if ordered then
      match keys l with
      | k0 :: k1 :: _ =>
          Ok ((if str_eqb k0 (s_ "name") then [] else [SErr (ref ++ s_ "/name") EFirstKey]) ++
              (if str_eqb k1 (s_ "description") then [] else [SErr (ref ++ s_ "/description") ESecondKey]))
      | _ => Raise IndexError
      end
    else Ok [].

  (** validation.py:607-695, [validate] *)
  Definition validate (v : jval) (ref : str) : res (list serr) :=
    if negb (jvalid GRAPH v) then Ok [SErr ref (EJsonSchema (jblame GRAPH v))]
    else
      do l <- fields v;
      do top <- validate_top l ref;
      do names <- validate_names l ref;
      do classes <- elements (s_ "classes") l;
      do cerrs <- mapM (fun ix : nat * jval =>
                          do fs <- fields (snd ix);
                          validate_class (nth_ref ref (s_ "classes") (fst ix)) fs) (enumerate classes);
      let types := NONCOMPOSITE ++ fst names in
      do gperrs <- validate_properties types ref l;
      do cperrs <- mapM (fun ix : nat * jval =>
                           do fs <- fields (snd ix);
                           validate_properties types (nth_ref ref (s_ "classes") (fst ix)) fs) (enumerate classes);
      do embeds <- elements (s_ "embeds") l;
      do eperrs <- mapM (fun ix : nat * jval =>
                           do fs <- fields (snd ix);
                           validate_properties types (nth_ref ref (s_ "embeds") (fst ix)) fs) (enumerate embeds);
      do plerrs <- validate_plurals l ref;
      Ok (top ++ snd names ++ concat cerrs ++ gperrs ++ concat cperrs ++ concat eperrs ++ plerrs).

  (** * Parsing *)

  (** [re.compile(s)] *)
  Definition compile (v : jval) : res str :=
    do s <- text v; if re_ok s then Ok s else Raise ReError.

  (** [int(x)] of a number *)
  Definition int_of (v : jval) : res Z :=
    match v with
    | JInt z => Ok z
    | JFloat f =>
        match f with
        | S754_nan => Raise ValueError
        | S754_infinity _ => Raise OverflowError
        | S754_zero _ => Ok 0%Z
        | S754_finite s m e =>
            let n := if s then Zneg m else Zpos m in
            Ok (if (0 <=? e)%Z then (n * 2 ^ e)%Z else Z.quot n (2 ^ (- e)))
        end
    | _ => Raise TypeError
    end.

  (** [f(mapping[key]) if key in mapping else None] *)
  Definition optional {A} (f : jval -> res A) (k : str) (l : list (str * jval)) : res (option A) :=
    match lookup k l with Some v => do a <- f v; Ok (Some a) | None => Ok None end.
  (** [mapping.get(key, default)] for texts *)
  Definition text_or (d : str) (k : str) (l : list (str * jval)) : res str :=
    match lookup k l with Some v => text v | None => Ok d end.

  (** parse.py:122-138 *)
  Definition bounds_of (l : list (str * jval)) : res bounds :=
    do mn <- optional int_of (s_ "minimum") l;
    do mx <- optional int_of (s_ "maximum") l;
    Ok (Bounds mn (flag (s_ "exclusive_minimum") l) mx (flag (s_ "exclusive_maximum") l)).

  (** parse.py:106-188, [_recurse_type_from_mapping]; the default formats are those
      of mapry/__init__.py:95-138. *)
  Fixpoint type_of (classes embeds : list str) (v : jval) : res ty :=
    match v with
    | JObj l =>
        do t <- get (s_ "type") l;
        do type <- text t;
        let values := on_key (fun x => type_of classes embeds x) (Raise KeyError) (s_ "values") l in
        if str_eqb type (s_ "boolean") then Ok TBool
        else if str_eqb type (s_ "integer") then do b <- bounds_of l; Ok (TInt b)
        else if str_eqb type (s_ "float") then do b <- bounds_of l; Ok (TFloat b)
        else if str_eqb type (s_ "string") then do p <- optional compile (s_ "pattern") l; Ok (TStr p)
        else if str_eqb type (s_ "path") then do p <- optional compile (s_ "pattern") l; Ok (TPath p)
        else if str_eqb type (s_ "date") then do f <- text_or (s_ "%Y-%m-%d") (s_ "format") l; Ok (TDate f)
        else if str_eqb type (s_ "time") then do f <- text_or (s_ "%H:%M:%S") (s_ "format") l; Ok (TTime f)
        else if str_eqb type (s_ "datetime") then
          do f <- text_or (s_ "%Y-%m-%dT%H:%M:%SZ") (s_ "format") l; Ok (TDatetime f)
        else if str_eqb type (s_ "time_zone") then Ok TTimeZone
        else if str_eqb type (s_ "duration") then Ok TDuration
        else if str_eqb type (s_ "array") then
          do vs <- values;
          do mn <- optional int_of (s_ "minimum_size") l;
          do mx <- optional int_of (s_ "maximum_size") l;
          Ok (TArray vs mn mx)
        else if str_eqb type (s_ "map") then do vs <- values; Ok (TMap vs)
        else if mem type classes then Ok (TClass type)
        else if mem type embeds then Ok (TEmbed type)
        else Raise NotImplementedError
    | _ => Raise TypeError
    end.

  (** parse.py:231-266, [_properties_from_mapping] *)
  Definition properties_of (classes embeds : list str) (ref : str) (ps : jval) : res (list prop) :=
    do fs <- fields ps;
    mapM (fun np : str * jval =>
            let (name, p) := np in
            do l <- fields p;
            do d <- get (s_ "description") l;
            do description <- text d;
            do json <- text_or name (s_ "json") l;
            do t <- type_of classes embeds p;
            Ok (Prop_ (ref ++ s_ "/" ++ name) name t description json (flag (s_ "optional") l)))
         (item_list fs).

  (** The properties of a composite, [ref] its reference: parse.py:306-316, 323-335,
      342-354. *)
  Definition own_properties (classes embeds : list str) (ref : str) (l : list (str * jval)) : res (list prop) :=
    match lookup (s_ "properties") l with
    | Some ps => properties_of classes embeds ref ps
    | None => Ok []
    end.

  (** parse.py:63-88, [_class_from_mapping], without the properties *)
  Definition class_of (ref : str) (l : list (str * jval)) : res cls :=
    do n <- get (s_ "name") l;
    do name <- text n;
    do pl <- text_or (plural name) (s_ "plural") l;
    do d <- get (s_ "description") l;
    do description <- text d;
    do pat <- optional compile (s_ "id_pattern") l;
    Ok (Cls name pl description ref pat []).
  (** parse.py:91-103, [_embed_from_mapping] *)
  Definition embed_of (ref : str) (l : list (str * jval)) : res embed :=
    do n <- get (s_ "name") l;
    do name <- text n;
    do d <- get (s_ "description") l;
    do description <- text d;
    Ok (Embed name description ref []).

  (** [graph.classes[name] = cls]: the dictionaries are represented by the lists of
      their values, each under its name. *)
  Fixpoint put_class (c : cls) (l : list cls) : list cls :=
    match l with
    | [] => [c]
    | d :: r => if str_eqb (c_name c) (c_name d) then c :: r else d :: put_class c r
    end.
  Fixpoint put_embed (e : embed) (l : list embed) : list embed :=
    match l with
    | [] => [e]
    | d :: r => if str_eqb (e_name e) (e_name d) then e :: r else d :: put_embed e r
    end.
  (** [graph.classes[name].properties = ps] *)
  Definition set_class_props (name : str) (ps : list prop) (l : list cls) : list cls :=
    map (fun c => if str_eqb name (c_name c)
                  then Cls (c_name c) (c_plural c) (c_description c) (c_ref c) (c_id_pattern c) ps else c) l.
  Definition set_embed_props (name : str) (ps : list prop) (l : list embed) : list embed :=
    map (fun e => if str_eqb name (e_name e)
                  then Embed (e_name e) (e_description e) (e_ref e) ps else e) l.

  Definition text_at (k : str) (l : list (str * jval)) : res str := do v <- get k l; text v.

  (** parse.py:15-30 *)
  Definition cpp_of (v : jval) : res cpp_conf :=
    do l <- fields v;
    do a <- text_at (s_ "namespace") l;
    do b <- text_at (s_ "path_as") l;
    do c <- text_at (s_ "optional_as") l;
    do d <- text_at (s_ "datetime_library") l;
    do e <- text_or (s_ "  ") (s_ "indention") l;
    Ok (CppConf a b c d e).
  (** parse.py:33-43 *)
  Definition go_of (v : jval) : res go_conf := do l <- fields v; do a <- text_at (s_ "package") l; Ok (GoConf a).
  (** parse.py:46-60 *)
  Definition py_of (v : jval) : res py_conf :=
    do l <- fields v;
    do a <- text_at (s_ "module_name") l;
    do b <- text_at (s_ "path_as") l;
    do c <- text_at (s_ "timezone_as") l;
    do d <- text_or (s_ "    ") (s_ "indention") l;
    Ok (PyConf a b c d).

  (** parse.py:290-364: [schema_from_mapping] after the validation *)
  Definition schema_of (v : jval) (ref : str) : res schema :=
    do l <- fields v;
    do name <- text_at (s_ "name") l;
    do description <- text_at (s_ "description") l;
    do cs <- elements (s_ "classes") l;
    do classes0 <- mapM (fun ix : nat * jval =>
                           do fs <- fields (snd ix); class_of (nth_ref ref (s_ "classes") (fst ix)) fs) (enumerate cs);
    let classes1 := fold_left (fun acc c => put_class c acc) classes0 [] in
    do es <- elements (s_ "embeds") l;
    do embeds0 <- mapM (fun ix : nat * jval =>
                          do fs <- fields (snd ix); embed_of (nth_ref ref (s_ "embeds") (fst ix)) fs) (enumerate es);
    let embeds1 := fold_left (fun acc e => put_embed e acc) embeds0 [] in
    let cn := map c_name classes1 in
    let en := map e_name embeds1 in
    do gps <- own_properties cn en ref l;
    do cps <- mapM (fun ix : nat * jval =>
                      do fs <- fields (snd ix);
                      do n <- text_at (s_ "name") fs;
                      do ps <- own_properties cn en (nth_ref ref (s_ "classes") (fst ix)) fs;
                      Ok (n, ps)) (enumerate cs);
    let classes := fold_left (fun acc np => set_class_props (fst np) (snd np) acc) cps classes1 in
    do eps <- mapM (fun ix : nat * jval =>
                      do fs <- fields (snd ix);
                      do n <- text_at (s_ "name") fs;
                      do ps <- own_properties cn en (nth_ref ref (s_ "embeds") (fst ix)) fs;
                      Ok (n, ps)) (enumerate es);
    let embeds := fold_left (fun acc np => set_embed_props (fst np) (snd np) acc) eps embeds1 in
    do cpp <- optional cpp_of (s_ "cpp") l;
    do go <- optional go_of (s_ "go") l;
    do py <- optional py_of (s_ "py") l;
    Ok (Schema (Graph name description ref classes embeds gps) cpp go py).

  (** parse.py:269-289 and the rest: [schema_from_mapping] *)
  Definition schema_from_mapping (v : jval) (ref : str) : res schema :=
    do errs <- validate v ref;
    match errs with
    | [] => schema_of v ref
    | _ => Raise SchemaErr
    end.
End Validate.
