(** When the names in a function of the generated code mean what they are meant to (C58).

    A function is described by the names which it declares and mentions, each with the thing
    which is meant; the rest of the text is left out. *)
From Coq Require Import String List Arith NArith ZArith Bool.
From Verif Require Import Base M_Schema M_Dec M_Text S_LangValid.
Import ListNotations.
Open Scope list_scope.

(** What a name can stand for: *)
Inductive thing :=
| Own (role : string)                (** a parameter or variable which every such function has *)
| For (role : string) (part : str)   (** one which is made for a part of the schema, by its name *)
| Auto (x : str)                     (** a numbered variable *)
| Outer (x : str).                   (** what is called [x] outside of the function *)

Inductive code :=
| Declare (t : thing) (x : str)      (** a declaration, or an assignment in Python *)
| Mention (t : thing) (x : str)
| Store (t : thing) (x : str)        (** an assignment to what is declared already, in C++ and Go *)
| Block (l : list code).             (** the body of a loop or of a branch *)

Record function := Function { fn_params : list (thing * str); fn_body : list code }.

Section Language.
  Variable reserved : list str.      (** the keywords *)
  Variable globals : list str.       (** the names known outside of the function *)

  (** * Languages with blocks: C++ and Go *)

  (** The innermost declaration counts. *)
  Fixpoint meaning (x : str) (frames : list (list (str * thing))) : option thing :=
    match frames with
    | [] => if mem x globals then Some (Outer x) else None
    | f :: rest => match lookup x f with Some t => Some t | None => meaning x rest end
    end.

  (** No keyword is declared, no name is declared twice in a block, and every name means what
      it is meant to. *)
  Inductive scoped : list (list (str * thing)) -> list code -> Prop :=
  | scoped_nil F : scoped F []
  | scoped_declare f F t x l :
      ~ In x reserved -> ~ In x (keys f) -> scoped (((x, t) :: f) :: F) l -> scoped (f :: F) (Declare t x :: l)
  | scoped_mention F t x l : meaning x F = Some t -> scoped F l -> scoped F (Mention t x :: l)
  | scoped_store F t x l : meaning x F = Some t -> scoped F l -> scoped F (Store t x :: l)
  | scoped_block F b l : scoped ([] :: F) b -> scoped F l -> scoped F (Block b :: l).

  (** The parameters are declared in the outermost block of the body. *)
  Definition block_right (f : function) : Prop :=
    scoped [[]] (map (fun p => Declare (fst p) (snd p)) (fn_params f) ++ fn_body f).

  (** ** Variables which are read *)

  (** The value of the variable [x], declared before [l], is read in [l]. *)
  Inductive reads (x : str) : list code -> Prop :=
  | reads_here t l : reads x (Mention t x :: l)
  | reads_block b l : reads x b -> reads x (Block b :: l)
  | reads_later a l : (forall t, a <> Declare t x) -> reads x l -> reads x (a :: l).

  (** Each variable is read after it has been declared. *)
  Inductive all_read : list code -> Prop :=
  | all_read_nil : all_read []
  | all_read_declare t x l : reads x l -> all_read l -> all_read (Declare t x :: l)
  | all_read_mention t x l : all_read l -> all_read (Mention t x :: l)
  | all_read_store t x l : all_read l -> all_read (Store t x :: l)
  | all_read_block b l : all_read b -> all_read l -> all_read (Block b :: l).

  (** * Python *)

  (** The executions: a block is entered any number of times, and left at any point. *)
  Inductive run : list code -> list code -> Prop :=
  | run_stop l : run l []
  | run_declare t x l tr : run l tr -> run (Declare t x :: l) (Declare t x :: tr)
  | run_mention t x l tr : run l tr -> run (Mention t x :: l) (Mention t x :: tr)
  | run_store t x l tr : run l tr -> run (Store t x :: l) (Mention t x :: tr)
  | run_enter b l tr tr' : run b tr -> run (Block b :: l) tr' -> run (Block b :: l) (tr ++ tr')
  | run_skip b l tr : run l tr -> run (Block b :: l) tr.

  (** The names which a function assigns anywhere are its own everywhere. *)
  Inductive assigns (x : str) : list code -> Prop :=
  | assigns_here t l : assigns x (Declare t x :: l)
  | assigns_block b l : assigns x b -> assigns x (Block b :: l)
  | assigns_later a l : assigns x l -> assigns x (a :: l).

  (** The last assignment counts. *)
  Inductive names_right (own : str -> Prop) : list (str * thing) -> list code -> Prop :=
  | names_nil E : names_right own E []
  | names_declare E t x tr : ~ In x reserved -> names_right own ((x, t) :: E) tr -> names_right own E (Declare t x :: tr)
  | names_own E t x tr : own x -> lookup x E = Some t -> names_right own E tr -> names_right own E (Mention t x :: tr)
  | names_outer E x tr : ~ own x -> In x globals -> names_right own E tr -> names_right own E (Mention (Outer x) x :: tr).

  Definition python_right (f : function) : Prop :=
    NoDup (map snd (fn_params f)) /\ (forall p, In p (fn_params f) -> ~ In (snd p) reserved) /\
    forall tr, run (fn_body f) tr ->
      names_right (fun x => In x (map snd (fn_params f)) \/ assigns x (fn_body f))
                  (map (fun p => (snd p, fst p)) (fn_params f)) tr.
End Language.

(** * Modules *)

(** [import m] binds the part of [m] before the first dot. *)
Definition bound_as (m : str) : str := takewhile (fun c => negb (N.eqb c 46)) m.

(** * Names of a schema which Python code can use *)

(** The Python Library Reference, Built-in Functions, and the exceptions in use *)
Definition python_builtins : list str :=
  map s_ ["abs"; "all"; "any"; "ascii"; "bin"; "bool"; "bytearray"; "bytes"; "callable"; "chr"; "classmethod"; "compile";
          "complex"; "delattr"; "dict"; "dir"; "divmod"; "enumerate"; "eval"; "exec"; "filter"; "float"; "format";
          "frozenset"; "getattr"; "globals"; "hasattr"; "hash"; "help"; "hex"; "id"; "input"; "int"; "isinstance";
          "issubclass"; "iter"; "len"; "list"; "locals"; "map"; "max"; "memoryview"; "min"; "next"; "object"; "oct";
          "open"; "ord"; "pow"; "print"; "property"; "range"; "repr"; "reversed"; "round"; "set"; "setattr"; "slice";
          "sorted"; "staticmethod"; "str"; "sum"; "super"; "tuple"; "type"; "vars"; "zip"; "ValueError";
          "OverflowError"]%string.

(** A source of the package [module]: what is imported does not hide what is built in, and
    the package does not hide other modules; the functions are defined once and hide nothing;
    and the names in the functions mean what they are meant to. *)
Definition python_source_right (module : str) (imported defined : list str) (functions : list function) : Prop :=
  (forall m, In m imported -> ~ In (bound_as m) python_builtins /\
     (bound_as m = bound_as module -> m = module \/ m = module ++ s_ ".parse")) /\
  NoDup defined /\
  (forall x, In x defined -> ~ In x (python_builtins ++ map bound_as imported)) /\
  forall f, In f functions -> python_right python37_keywords (python_builtins ++ map bound_as imported ++ defined) f.

Section Schema.
  Variable g : graph.
  Definition structure_names : list str := g_name g :: map c_name (g_classes g) ++ map e_name (g_embeds g).

  (** [m] is a name of the generated functions, of their parameters and variables, or of
      another module. *)
  Definition python_name (m : str) : Prop :=
    In m (map s_ ["value"; "ref"; "errors"; "target"; "graph"; "registry_value"; "id"; "instance_value"; "err"; "Error";
                  "Errors"; "_duration_from_string"; "_duration_to_string"; "typing"; "pathlib"; "pytz"; "datetime";
                  "collections"; "re"]%string) \/
    (exists c, In c (g_classes g) /\ (m = lower (c_plural c) ++ s_ "_registry" \/ m = s_ "target_" ++ lower (c_name c))) \/
    (exists stem k, In stem (map s_ ["value_"; "target_"; "i_"; "item_"; "target_item_"; "key_"]%string) /\ m = stem ++ dec_nat k) \/
    (exists n, In n structure_names /\
       In m [lower n ++ s_ "_from"; s_ "_" ++ lower n ++ s_ "_from"; s_ "serialize_" ++ lower n; s_ "placeholder_" ++ lower n]).

  (** [package] is the name of the outermost package of the generated code. *)
  Definition python_names_apart (package : str) : Prop :=
    NoDup (map lower structure_names) /\
    ~ python_name package /\ ~ In package python_builtins /\
    forall c, In c (g_classes g) ->
      s_ "target_" ++ lower (c_plural c) <> lower (c_name c) ++ s_ "_instance" /\
      forall n, In n structure_names -> lower (c_name c) ++ s_ "_instance" <> s_ "serialize_" ++ lower n.
End Schema.

(** * Go *)

(** The Go Programming Language Specification, Predeclared identifiers (up to Go 1.17) *)
Definition go_predeclared : list str :=
  map s_ ["bool"; "byte"; "complex64"; "complex128"; "error"; "float32"; "float64"; "int"; "int8"; "int16"; "int32";
          "int64"; "rune"; "string"; "uint"; "uint8"; "uint16"; "uint32"; "uint64"; "uintptr"; "true"; "false"; "iota";
          "nil"; "append"; "cap"; "close"; "complex"; "copy"; "delete"; "imag"; "len"; "make"; "new"; "panic"; "print";
          "println"; "real"; "recover"]%string.

(** A source of a package which declares the names [package] in all its sources: what is
    declared is neither a keyword nor the name of a package which is imported, and hides
    nothing which is predeclared; and the names in the functions mean what they are meant to. *)
Definition go_source_right (package imported : list str) (functions : list function) : Prop :=
  NoDup package /\
  (forall x, In x package -> ~ In x (go_keywords ++ go_predeclared ++ imported)) /\
  (forall x, In x imported -> ~ In x go_predeclared) /\
  forall f, In f functions -> block_right go_keywords (go_predeclared ++ imported ++ package) f.

(** The compiler rejects variables which are declared, but not used; parameters and results
    are excepted. *)
Definition go_uses_variables (f : function) : Prop := all_read (fn_body f).

(** [i] is made of the parts of [n] between the underscores, which are not empty: the first
    one in lower case, the others with a capital first letter. *)
Definition lower_camel (n i : str) : Prop :=
  exists p parts, n = join (s_ "_") (p :: parts) /\
  (forall q, In q (p :: parts) -> q <> [] /\ ~ In 95%N q) /\ i = lower p ++ concat (map with_capital parts).

(** The names of the structures are no other names of the package; the plurals differ in the
    spelling of variables; and a pair of variables in the function which serializes the graph
    has different names. *)
Definition go_names_apart (g : graph) : Prop :=
  graph_apart upper_camel g /\
  (forall n i, In n (structure_names g) -> upper_camel n i -> ~ go_reserved upper_camel g i) /\
  (exists ids, Forall2 lower_camel (map c_plural (g_classes g)) ids /\ NoDup ids) /\
  forall c i j, In c (g_classes g) -> upper_camel (c_plural c) i -> lower_camel (c_name c) j ->
    s_ "target" ++ i <> j ++ s_ "Instance".

(** * C++ *)

(** What a source defines at the level of its namespace: a function, with the types of its
    parameters, or a constant [x] in the namespace [space]. *)
Inductive entity := Overload (x : str) (types : list str) | Within (space x : str).
Definition entity_name (e : entity) : str := match e with Overload x _ => x | Within space _ => space end.

(** What the code uses of the libraries: names without a qualifier, and the qualifiers. *)
Definition cpp_library : list str := map s_ ["strlen"; "strptime"; "tm"; "size_t"; "int64_t"]%string.
Definition cpp_qualifiers : list str := map s_ ["std"; "Json"; "date"; "boost"; "parse"]%string.

(** A source in the namespaces [spaces], which knows the types [types] and whose header declares
    the functions [header]: nothing is defined twice, and the header declares nothing which is
    not defined; the types, the functions and the namespaces have different names, which are no
    keywords and hide nothing which the code uses; and the names in the functions mean what they
    are meant to, among what is declared before the function and itself. *)
Definition cpp_source_right (spaces types : list str) (header : list entity) (items : list (entity * option function)) : Prop :=
  NoDup types /\
  (forall x, In x types -> ~ In x (cpp_keywords ++ cpp_library ++ cpp_qualifiers)) /\
  (forall x, In x spaces -> ~ In x (cpp_keywords ++ cpp_qualifiers)) /\
  NoDup (map fst items) /\
  (forall e, In e header -> In e (map fst items)) /\
  (forall e, In e (map fst items) -> ~ In (entity_name e) (cpp_keywords ++ cpp_library ++ cpp_qualifiers ++ types)) /\
  (forall space x f ts, In (Within space x) (map fst items) -> In (Overload f ts) (map fst items) -> space <> f) /\
  (forall before e f after, items = before ++ (e, Some f) :: after ->
     block_right cpp_keywords (cpp_library ++ types ++ map entity_name (header ++ map fst before ++ [e])) f).

(** The variables of a function which serializes have other names than the functions and the
    variables it uses: the parameter is called like the structure in lower case, the result
    with [_as_value], and the functions with [serialize_].  Besides, the names of the structures
    are no keywords in lower case, and none is called [Json]; the variables for the references
    have different names; and so do the namespaces for the patterns. *)
Definition cpp_serialized_as (n : str) : str := s_ "serialize_" ++ lower n.
Definition cpp_names_apart (spaces : list str) (g : graph) : Prop :=
  graph_apart upper_camel g /\
  (forall n, In n (structure_names g) -> ~ upper_camel n (s_ "Json")) /\
  (forall n, In n (structure_names g) ->
     ~ In (lower n) (cpp_keywords ++ map s_ ["tm_to_string"; "duration_to_string"]%string) /\
     (forall stem k, In stem (map s_ ["target_"; "vector_"; "map_"; "i_"; "kv_"]%string) -> lower n <> stem ++ dec_nat k) /\
     forall m, In m (structure_names g) -> lower n <> cpp_serialized_as m /\ lower n ++ s_ "_as_value" <> cpp_serialized_as m) /\
  lower (g_name g) <> s_ "strlen" /\
  (forall c, In c (g_classes g) ->
     lower (c_plural c) <> s_ "instance" /\ lower (c_plural c) <> lower (g_name g) /\
     lower (c_plural c) ++ s_ "_as_value" <> lower (g_name g) /\
     lower (c_plural c) ++ s_ "_as_value" <> cpp_serialized_as (c_name c)) /\
  NoDup (map lower (map c_name (filter (fun c => match c_id_pattern c with Some _ => true | None => false end) (g_classes g)))) /\
  (forall c n, In c (g_classes g) -> c_id_pattern c <> None -> In n (structure_names g) -> lower (c_name c) ++ s_ "_re" <> cpp_serialized_as n) /\
  forall x, In x spaces -> ~ In x (cpp_keywords ++ cpp_qualifiers).
