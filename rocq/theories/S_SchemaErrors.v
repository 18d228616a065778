(** Specification: where a reference leads in a document, and what can be wrong at a place of
    a document. *)
From Coq Require Import String List Arith NArith ZArith QArith Bool.
From Verif Require Import Base M_Naming M_Schema M_Dec M_Strftime M_Validate S_Validate.
Import ListNotations.
Open Scope list_scope.
Local Open Scope nat_scope.

(** * References *)

(** [leads path v w]: from [v] one comes to [w] by the names of the members and the indices of
    the items in the [path]. *)
Inductive leads : list str -> jval -> jval -> Prop :=
| leads_here v : leads [] v v
| leads_member k l v path w : In (k, v) l -> leads path v w -> leads (k :: path) (JObj l) w
| leads_item i l v path w : nth_error l i = Some v -> leads path v w -> leads (dec_nat i :: path) (JArr l) w.

(** The reference to the end of the [path]: each part follows a slash. *)
Definition reference (base : str) (path : list str) : str := base ++ concat (map (fun p => s_ "/" ++ p) path).

(** * Definitions of types *)

(** The members which the definition of a type may have apart from those of all definitions. *)
Definition type_members : list (list string * list string) :=
  [(["integer"; "float"], ["minimum"; "maximum"; "exclusive_minimum"; "exclusive_maximum"]);
   (["string"; "path"], ["pattern"]);
   (["date"; "time"; "datetime"], ["format"]);
   (["array"], ["values"; "minimum_size"; "maximum_size"]);
   (["map"], ["values"])]%string.
Definition may_state (top : bool) (t k : str) : Prop :=
  In k (map s_ ["type"; "description"]%string) \/
  (top = true /\ In k (map s_ ["json"; "optional"]%string)) \/
  exists ts ks, In (ts, ks) type_members /\ In t (map s_ ts) /\ In k (map s_ ks).

Definition simple_types : list string :=
  ["boolean"; "integer"; "float"; "string"; "path"; "date"; "time"; "datetime"; "duration"; "time_zone"; "array"; "map"]%string.
(** What the members must be. *)
Definition demands : list (list string * list string * (jval -> Prop)) :=
  [(simple_types, ["description"]%string, a_text any);
   (["integer"]%string, ["minimum"; "maximum"]%string, an_integer);
   (["float"]%string, ["minimum"; "maximum"]%string, a_number);
   (["integer"; "float"]%string, ["exclusive_minimum"; "exclusive_maximum"]%string, a_boolean);
   (["string"; "path"]%string, ["pattern"]%string, a_text any);
   (["date"; "time"; "datetime"]%string, ["format"]%string, a_text any);
   (["array"; "map"]%string, ["values"]%string, fun v => exists l, v = JObj l);
   (["array"]%string, ["minimum_size"; "maximum_size"]%string, a_size)].

Section Faults.
  Variable re_ok : str -> bool.    (** the text is a regular expression *)
  Variable ordered : bool.         (** the order of the members is known *)

  Section Types.
    Variable is_type : str -> Prop.

    (** [bad_definition top v path kind]: the definition [v] is wrong, as the [kind] says, at
        the end of the [path]; [top] for the definition of a property. *)
    Inductive bad_definition : bool -> jval -> list str -> skind -> Prop :=
    | bad_first l k v r :
        ordered = true -> l = (k, v) :: r -> k <> s_ "type" -> bad_definition true (JObj l) [s_ "type"] EFirstKey
    | bad_second l a k v r :
        ordered = true -> l = a :: (k, v) :: r -> k <> s_ "description" -> In (s_ "description") (keys l) ->
        bad_definition true (JObj l) [s_ "description"] ESecondKey
    | bad_type top l t :
        In (s_ "type", t) l -> (forall n, t = JStr n -> ~ is_type n) ->
        bad_definition top (JObj l) [s_ "type"] EInvalidType
    | bad_member top l t ts ks P k v paths :
        of_type l t -> In (ts, ks, P) demands -> In t ts -> In k ks -> In (s_ k, v) l -> ~ P v ->
        bad_definition top (JObj l) [s_ k] (ETypeSchema paths)
    | bad_missing top l t paths :
        of_type l t -> In t ["array"; "map"]%string -> no_member l "values" ->
        bad_definition top (JObj l) [] (ETypeSchema paths)
    | bad_extra top l t k :
        In (s_ "type", JStr t) l -> In k (keys l) -> ~ may_state top t k ->
        bad_definition top (JObj l) [] (EUnexpectedKey k)
    | bad_bounds top l t a b :
        of_type l t -> In t ["integer"; "float"]%string ->
        In (s_ "minimum", a) l -> In (s_ "maximum", b) l -> below (value b) (value a) ->
        bad_definition top (JObj l) [] EMinOverMax
    | bad_range top l t a b :
        of_type l t -> In t ["integer"; "float"]%string ->
        In (s_ "minimum", a) l -> In (s_ "maximum", b) l -> same (value a) (value b) ->
        In (s_ "exclusive_minimum", JBool true) l \/ In (s_ "exclusive_maximum", JBool true) l ->
        bad_definition top (JObj l) [] EEmptyRange
    | bad_pattern top l t p :
        of_type l t -> In t ["string"; "path"]%string -> In (s_ "pattern", JStr p) l -> re_ok p = false ->
        bad_definition top (JObj l) [s_ "pattern"] EPattern
    | bad_format top l t f :
        of_type l t -> In (s_ "format", JStr f) l ->
        (t = "date"%string /\ date_format_valid f = false) \/
        (t = "time"%string /\ time_format_valid f = false) \/
        (t = "datetime"%string /\ datetime_format_valid f = false) ->
        bad_definition top (JObj l) [s_ "format"] EFormat
    | bad_sizes top l a b :
        of_type l "array" -> In (s_ "minimum_size", JInt a) l -> In (s_ "maximum_size", JInt b) l -> (b < a)%Z ->
        bad_definition top (JObj l) [s_ "minimum_size"] ESizes
    | bad_values top l t v path kind :
        of_type l t -> In t ["array"; "map"]%string -> In (s_ "values", v) l ->
        bad_definition false v path kind -> bad_definition top (JObj l) (s_ "values" :: path) kind.
  End Types.

  (** * Documents *)

  Section Document.
    Variable l : list (str * jval).    (** the members of the document *)

    (** [composite_at i path c]: the [i]-th composite of the document is at the end of the
        [path]; first comes the graph, then the classes, then the embeds. *)
    Inductive composite_at : nat -> list str -> list (str * jval) -> Prop :=
    | at_graph : composite_at 0 [] l
    | at_class cs i c :
        In (s_ "classes", JArr cs) l -> nth_error cs i = Some (JObj c) ->
        composite_at (S i) [s_ "classes"; dec_nat i] c
    | at_embed cs es i e :
        list_under l "classes" cs -> In (s_ "embeds", JArr es) l -> nth_error es i = Some (JObj e) ->
        composite_at (S (length cs + i)) [s_ "embeds"; dec_nat i] e.

    (** The types: the simple ones and the composites. *)
    Definition type_name (t : str) : Prop :=
      In t (map s_ simple_types) \/ exists i path c, composite_at i path c /\ In (s_ "name", JStr t) c.

    (** What is wrong apart from the definitions of the properties. *)
    Inductive bad_composite : list str -> skind -> Prop :=
    | bad_first_key k v r :
        ordered = true -> l = (k, v) :: r -> k <> s_ "name" -> bad_composite [s_ "name"] EFirstKey
    | bad_second_key a k v r :
        ordered = true -> l = a :: (k, v) :: r -> k <> s_ "description" -> bad_composite [s_ "description"] ESecondKey
    | bad_name i path c j path' c' n :
        composite_at i path c -> In (s_ "name", JStr n) c ->
        composite_at j path' c' -> In (s_ "name", JStr n) c' -> j < i ->
        bad_composite (path ++ [s_ "name"]) (EDuplicateName n)
    | bad_id_pattern i j c p :
        composite_at i [s_ "classes"; j] c -> In (s_ "id_pattern", JStr p) c -> re_ok p = false ->
        bad_composite [s_ "classes"; j; s_ "id_pattern"] EIdPattern
    | bad_id i j c ps :
        composite_at i [s_ "classes"; j] c -> In (s_ "properties", JObj ps) c -> In (s_ "id") (keys ps) ->
        bad_composite [s_ "classes"; j; s_ "properties"] EReservedId
    | bad_property_name i path c ps n :
        composite_at i path c -> In (s_ "properties", JObj ps) c -> In n (keys ps) -> ~ lax (identifier letter) n ->
        bad_composite (path ++ [s_ "properties"]) (EPropertyName n).

    (** [n] is a property of the graph and [cn] a class whose registry is stored under the
        same name. *)
    Definition plural_taken (n cn : str) : Prop :=
      exists ps i j c p, In (s_ "properties", JObj ps) l /\ In n (keys ps) /\
        composite_at i [s_ "classes"; j] c /\ plural_of (JObj c) p /\ n = lower p /\ In (s_ "name", JStr cn) c.

    Inductive fault : list str -> skind -> Prop :=
    | fault_composite path kind : bad_composite path kind -> fault path kind
    | fault_definition i path c ps n p sub kind :
        composite_at i path c -> In (s_ "properties", JObj ps) c -> In (n, p) ps ->
        bad_definition type_name true p sub kind -> fault (path ++ [s_ "properties"; n] ++ sub) kind
    | fault_plural n cn : plural_taken n cn -> fault [s_ "properties"; n] (EPlural n cn).
  End Document.
End Faults.

(** * The shape of a document *)

Inductive part_kind := KGraph | KCpp | KGo | KPy | KClass | KEmbed | KProperty.
(** The members which a part must have. *)
Definition mandatory (k : part_kind) : list string :=
  match k with
  | KGraph | KClass | KEmbed => ["name"; "description"]
  | KCpp => ["namespace"; "path_as"; "optional_as"; "datetime_library"]
  | KGo => ["package"]
  | KPy => ["module_name"; "path_as"; "timezone_as"]
  | KProperty => ["description"; "type"]
  end%string.
(** The members which it may have, and what they must be; for a property these are not all, see
    [may_state]. *)
Definition stated_as (k : part_kind) : list (string * (jval -> Prop)) :=
  match k with
  | KGraph =>
      [("name", a_text (starts capital)); ("description", a_text (lax description_shape));
       ("cpp", fun _ => True); ("go", fun _ => True); ("py", fun _ => True);
       ("classes", fun v => exists cs, v = JArr cs); ("embeds", fun v => exists es, v = JArr es);
       ("properties", fun v => exists ps, v = JObj ps)]
  | KCpp =>
      [("namespace", a_text (lax (qualified "::")));
       ("path_as", a_text (one_of ["std::filesystem::path"; "boost::filesystem::path"]));
       ("optional_as", a_text (one_of ["boost::optional"; "std::optional"; "std::experimental::optional"]));
       ("datetime_library", a_text (one_of ["ctime"; "date.h"])); ("indention", a_text (lax blank))]
  | KGo => [("package", a_text (starts letter))]
  | KPy =>
      [("module_name", a_text (lax (qualified "."))); ("path_as", a_text (one_of ["str"; "pathlib.Path"]));
       ("timezone_as", a_text (one_of ["str"; "pytz.timezone"])); ("indention", a_text (lax blank))]
  | KClass =>
      [("name", a_text (lax (identifier capital))); ("description", a_text (lax description_shape));
       ("plural", a_text (lax (identifier capital))); ("id_pattern", a_text any);
       ("properties", fun v => exists ps, v = JObj ps)]
  | KEmbed =>
      [("name", a_text (starts capital)); ("description", a_text (lax description_shape));
       ("properties", fun v => exists ps, v = JObj ps)]
  | KProperty =>
      [("description", a_text any); ("type", a_text (fun n => exists c, In c n /\ letter c));
       ("json", a_text any); ("optional", a_boolean)]
  end%string.

Section Shape.
  Variable v : jval.    (** the document *)

  (** [place k path x]: at the end of the [path] there is [x], which should be a [k]. *)
  Inductive place : part_kind -> list str -> jval -> Prop :=
  | place_graph : place KGraph [] v
  | place_cpp l x : v = JObj l -> In (s_ "cpp", x) l -> place KCpp [s_ "cpp"] x
  | place_go l x : v = JObj l -> In (s_ "go", x) l -> place KGo [s_ "go"] x
  | place_py l x : v = JObj l -> In (s_ "py", x) l -> place KPy [s_ "py"] x
  | place_class l cs i x : v = JObj l -> In (s_ "classes", JArr cs) l -> nth_error cs i = Some x -> place KClass [s_ "classes"; dec_nat i] x
  | place_embed l es i x : v = JObj l -> In (s_ "embeds", JArr es) l -> nth_error es i = Some x -> place KEmbed [s_ "embeds"; dec_nat i] x
  | place_property k path c ps n p :
      place k path (JObj c) -> In k [KGraph; KClass; KEmbed] -> In (s_ "properties", JObj ps) c -> In (n, p) ps ->
      place KProperty (path ++ [s_ "properties"; n]) p.

  (** The part at the end of the path has not the right shape. *)
  Inductive misshapen : list str -> Prop :=
  | not_an_object k path x : place k path x -> (forall m, x <> JObj m) -> misshapen path
  | missing_member k path m key : place k path (JObj m) -> In key (mandatory k) -> no_member m key -> misshapen path
  | unknown_member k path m key :
      place k path (JObj m) -> k <> KProperty -> In key (keys m) -> ~ In key (map s_ (map fst (stated_as k))) -> misshapen path
  | wrong_member k path m key P x :
      place k path (JObj m) -> In (key, P) (stated_as k) -> In (s_ key, x) m -> ~ P x -> misshapen (path ++ [s_ key]).
End Shape.
