(** The generated Python module with the types of the object graph:
    mapry/py/generate/types.py and what Python does with the module. *)
From Coq Require Import String List Arith NArith ZArith Bool.
From Verif Require Import Base M_Naming M_Schema M_TypeGraph M_Text M_Validate M_GoImports.
Import ListNotations.
Open Scope list_scope.

(** * The generated module *)

(** Annotations: a name, a string literal, an attribute of a module, and a subscription
    as [typing.List[a]]. *)
Inductive annotation :=
| AName (n : str)
| AText (n : str)
| AAttr (module attr : str)
| AOf (module attr : str) (args : list annotation).

(** The composites, as objects. *)
Inductive composite := CClass (n : str) | CEmbed (n : str).
Definition composite_eqb (a b : composite) : bool :=
  match a, b with
  | CClass m, CClass n | CEmbed m, CEmbed n => str_eqb m n
  | _, _ => false
  end.
Definition composite_name (c : composite) : str := match c with CClass n | CEmbed n => n end.

(** types.py:62-103 [_type_repr] and py/generate/__init__.py:32-106 [type_repr] *)
Fixpoint type_annotation (py : py_conf) (defined : list composite) (t : ty) : res annotation :=
  let of_composite c :=
    do n <- as_composite (composite_name c);
    Ok (if existsb (composite_eqb c) defined then AName n else AText n) in
  match t with
  | TBool => Ok (AName (s_ "bool"))
  | TInt _ => Ok (AName (s_ "int"))
  | TFloat _ => Ok (AName (s_ "float"))
  | TStr _ => Ok (AName (s_ "str"))
  | TPath _ =>
      if str_eqb (pc_path_as py) (s_ "str") then Ok (AName (s_ "str"))
      else if str_eqb (pc_path_as py) (s_ "pathlib.Path") then Ok (AAttr (s_ "pathlib") (s_ "Path"))
      else Raise NotImplementedError
  | TDate _ => Ok (AAttr (s_ "datetime") (s_ "date"))
  | TTime _ => Ok (AAttr (s_ "datetime") (s_ "time"))
  | TDatetime _ => Ok (AAttr (s_ "datetime") (s_ "datetime"))
  | TTimeZone =>
      if str_eqb (pc_timezone_as py) (s_ "str") then Ok (AName (s_ "str"))
      else if str_eqb (pc_timezone_as py) (s_ "pytz.timezone") then Ok (AAttr (s_ "datetime") (s_ "tzinfo"))
      else Raise NotImplementedError
  | TDuration => Ok (AAttr (s_ "datetime") (s_ "timedelta"))
  | TArray values _ _ =>
      do a <- type_annotation py defined values; Ok (AOf (s_ "typing") (s_ "List") [a])
  | TMap values =>
      do a <- type_annotation py defined values;
      Ok (AOf (s_ "typing") (s_ "MutableMapping") [AName (s_ "str"); a])
  | TClass n => of_composite (CClass n)
  | TEmbed n => of_composite (CEmbed n)
  end.

(** A parameter of a constructor: its name, annotation, and whether its default is None. *)
Record param := Param { pa_name : str; pa_annotation : annotation; pa_default : bool }.

(** The statements of a constructor.  [SetAttr]: [self.a = a]; [SetOptional]:
    [self.a = a if a is not None else None]; [SetRegistry]: [if a is not None: self.a = a;
    else: self.a = collections.OrderedDict()]. *)
Inductive statement := SetAttr (a : str) | SetOptional (a : str) | SetRegistry (a : str).

(** A class; [None] instead of a constructor for structures without properties. *)
Record definition := Definition_ { de_name : str; de_init : option (list param * list statement) }.

Definition optional_of (a : annotation) : annotation := AOf (s_ "typing") (s_ "Optional") [a].

(** types.py:113-126, 164-175, 350-361: the parameters of the properties *)
Definition property_params (py : py_conf) (defined : list composite) (ps : list prop) : res (list param) :=
  mapM (fun p =>
    do n <- as_attribute (p_name p);
    do a <- type_annotation py defined (p_type p);
    Ok (if p_optional p then Param n (optional_of a) true else Param n a false)) ps.

(** types.py:135-143, 185-193, 295-304 *)
Definition property_statements (ps : list prop) : res (list statement) :=
  mapM (fun p => do n <- as_attribute (p_name p); Ok (if p_optional p then SetOptional n else SetAttr n)) ps.

(** types.py:197-226 [_define_class] with the template at 106-144 *)
Definition define_class (py : py_conf) (defined : list composite) (c : cls) : res definition :=
  do n <- as_composite (c_name c);
  let ps := order_by_optional (c_props c) in
  do params <- property_params py defined ps;
  do body <- property_statements ps;
  Ok (Definition_ n (Some (Param (s_ "id") (AName (s_ "str")) false :: params, SetAttr (s_ "id") :: body))).

(** types.py:230-264 [_define_embed] with the templates at 147-193 *)
Definition define_embed (py : py_conf) (defined : list composite) (e : embed) : res definition :=
  do n <- as_composite (e_name e);
  match e_props e with
  | [] => Ok (Definition_ n None)
  | _ =>
      let ps := order_by_optional (e_props e) in
      do params <- property_params py defined ps;
      do body <- property_statements ps;
      Ok (Definition_ n (Some (params, body)))
  end.

(** types.py:316-373 [_define_graph] with the template at 267-312 *)
Definition define_graph (py : py_conf) (defined : list composite) (g : graph) : res definition :=
  do n <- as_composite (g_name g);
  match g_props g, g_classes g with
  | [], [] => Ok (Definition_ n None)
  | _, _ =>
      let ps := order_by_optional (g_props g) in
      do params <- property_params py defined ps;
      do registries <- mapM (fun c =>
        do r <- as_attribute (c_plural c);
        do a <- type_annotation py defined (TClass (c_name c));
        Ok (Param r (optional_of (AOf (s_ "typing") (s_ "MutableMapping") [AName (s_ "str"); a])) true)) (g_classes g);
      do body <- property_statements ps;
      do rest <- mapM (fun c => do r <- as_attribute (c_plural c); Ok (SetRegistry r)) (g_classes g);
      Ok (Definition_ n (Some (params ++ registries, body ++ rest)))
  end.

(** [definition_order[:i]] for each composite, types.py:393-412 *)
Fixpoint define_all {A} (define : list composite -> A -> res definition) (as_comp : A -> composite)
         (defined : list composite) (l : list A) : res (list definition) :=
  match l with
  | [] => Ok []
  | x :: l' =>
      do d <- define defined x;
      do ds <- define_all define as_comp (defined ++ [as_comp x]) l';
      Ok (d :: ds)
  end.

(** types.py:15-58 [_imports] *)
Definition py_types_imports (py : py_conf) (g : graph) : res (list str) :=
  do paths <- (if graph_needs g (KPrim PPath) then
                 if str_eqb (pc_path_as py) (s_ "str") then Ok []
                 else if str_eqb (pc_path_as py) (s_ "pathlib.Path") then Ok [s_ "pathlib"]
                 else Raise NotImplementedError
               else Ok []);
  do zones <- (if graph_needs g (KPrim PTimeZone) then
                 if str_eqb (pc_timezone_as py) (s_ "str") then Ok []
                 else if str_eqb (pc_timezone_as py) (s_ "pytz.timezone") then Ok [s_ "datetime"]
                 else Raise NotImplementedError
               else Ok []);
  Ok ([s_ "typing"] ++ paths ++ zones ++
      (if existsb (fun q => graph_needs g (KPrim q)) [PDate; PTime; PDatetime; PDuration] then [s_ "datetime"] else []) ++
      (match g_classes g with [] => [] | _ => [s_ "collections"] end)).

(** types.py:377-417 [generate]: the imported modules and the classes, in order.  The text
    around them is left out. *)
Record module := Module_ { mo_imports : list str; mo_definitions : list definition }.
Definition types_module (py : py_conf) (g : graph) : res module :=
  do imports <- py_types_imports py g;
  let classes := map (fun c => CClass (c_name c)) (g_classes g) in
  let embeds := map (fun e => CEmbed (e_name e)) (g_embeds g) in
  do cs <- define_all (define_class py) (fun c => CClass (c_name c)) [] (g_classes g);
  do es <- define_all (define_embed py) (fun e => CEmbed (e_name e)) classes (g_embeds g);
  do d <- define_graph py (classes ++ embeds) g;
  Ok (Module_ imports (cs ++ es ++ [d])).

(** * What Python does with it *)

Inductive failure :=
| SyntaxError
| NameError (n : str)
| MissingArgument (n : str)        (** TypeError *)
| UnexpectedArgument (n : str)     (** TypeError *)
| NoAttribute (n : str).           (** AttributeError *)
Inductive outcome (A : Type) := Done (a : A) | Failed (f : failure).
Arguments Done {A}. Arguments Failed {A}.

(** The Python Language Reference, 8.6: parameters without a default do not follow those
    with one; no parameter is repeated; keywords are no names. *)
Fixpoint defaults_last (ps : list param) (seen : bool) : bool :=
  match ps with
  | [] => true
  | p :: ps' => if pa_default p then defaults_last ps' true else negb seen && defaults_last ps' seen
  end.
Fixpoint repeated (l : list str) : bool :=
  match l with [] => false | a :: l' => mem a l' || repeated l' end.
Definition syntax_ok (keywords : list str) (d : definition) : bool :=
  negb (mem (de_name d) keywords) &&
  match de_init d with
  | None => true
  | Some (params, _) =>
      let names := s_ "self" :: map pa_name params in
      negb (repeated names) && negb (existsb (fun n => mem n keywords) names) && defaults_last params false
  end.

(** Annotations are evaluated when the function is defined, in the scope of the module: the
    first name in the annotation which is not defined.  A text in an annotation is not
    evaluated. *)
Fixpoint undefined (names : list str) (a : annotation) : option str :=
  match a with
  | AName n => if mem n names then None else Some n
  | AText _ => None
  | AAttr m _ => if mem m names then None else Some m
  | AOf m _ args =>
      if mem m names then
        fold_right (fun b r => match undefined names b with Some n => Some n | None => r end) None args
      else Some m
  end.
Definition first_undefined (names : list str) (l : list annotation) : option str :=
  fold_right (fun b r => match undefined names b with Some n => Some n | None => r end) None l.

Definition builtins : list str := map s_ ["bool"; "int"; "float"; "str"]%string.

Fixpoint run_definitions (names : list str) (ds : list definition) : outcome (list str) :=
  match ds with
  | [] => Done names
  | d :: ds' =>
      match de_init d with
      | None => run_definitions (names ++ [de_name d]) ds'
      | Some (params, _) =>
          match first_undefined names (map pa_annotation params) with
          | Some n => Failed (NameError n)
          | None => run_definitions (names ++ [de_name d]) ds'
          end
      end
  end.

(** [import module]: the names defined in the module *)
Definition import_module (keywords : list str) (m : module) : outcome (list str) :=
  if forallb (syntax_ok keywords) (mo_definitions m) then run_definitions (builtins ++ mo_imports m) (mo_definitions m)
  else Failed SyntaxError.

(** ** Calling a constructor *)
Section Construct.
  Variable V : Type.                 (** the arguments other than None *)
  Inductive value := VNone | VArgument (v : V) | VEmptyRegistry.

  (** The calls have keyword arguments. *)
  Fixpoint bind_params (ps : list param) (args : list (str * value)) : outcome (list (str * value)) :=
    match ps with
    | [] => Done []
    | p :: ps' =>
        match lookup (pa_name p) args, pa_default p with
        | None, false => Failed (MissingArgument (pa_name p))
        | Some v, _ => match bind_params ps' args with Done e => Done ((pa_name p, v) :: e) | Failed f => Failed f end
        | None, true => match bind_params ps' args with Done e => Done ((pa_name p, VNone) :: e) | Failed f => Failed f end
        end
    end.

  (** A name in the body is a parameter, or else a name of the module.  None of the
      arguments has an attribute [OrderedDict]. *)
  Definition new_registry (imports : list str) (env : list (str * value)) : outcome value :=
    match lookup (s_ "collections") env with
    | Some _ => Failed (NoAttribute (s_ "OrderedDict"))
    | None => if mem (s_ "collections") imports then Done VEmptyRegistry else Failed (NameError (s_ "collections"))
    end.

  Definition run_statement (imports : list str) (env : list (str * value)) (st : statement) : outcome (str * value) :=
    match st with
    | SetAttr a | SetOptional a =>
        match lookup a env with Some v => Done (a, v) | None => Failed (NameError a) end
    | SetRegistry a =>
        match lookup a env with
        | None => Failed (NameError a)
        | Some VNone => match new_registry imports env with Done v => Done (a, v) | Failed f => Failed f end
        | Some v => Done (a, v)
        end
    end.

  Fixpoint run_body (imports : list str) (env : list (str * value)) (body : list statement) (attrs : list (str * value))
    : outcome (list (str * value)) :=
    match body with
    | [] => Done attrs
    | st :: body' =>
        match run_statement imports env st with
        | Failed f => Failed f
        | Done (a, v) => run_body imports env body' (upsert a v attrs)
        end
    end.

  (** [C(a=x, b=y, ...)]: the attributes of the new object *)
  Definition construct (m : module) (d : definition) (args : list (str * value)) : outcome (list (str * value)) :=
    match de_init d with
    | None => match args with [] => Done [] | (n, _) :: _ => Failed (UnexpectedArgument n) end
    | Some (params, body) =>
        match find (fun n => negb (mem n (map pa_name params))) (keys args) with
        | Some n => Failed (UnexpectedArgument n)
        | None =>
            match bind_params params args with
            | Failed f => Failed f
            | Done env => run_body (mo_imports m) env body []
            end
        end
    end.
End Construct.
Arguments VNone {V}. Arguments VArgument {V}. Arguments VEmptyRegistry {V}.
