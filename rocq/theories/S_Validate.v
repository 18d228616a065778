(** Specification: which JSON documents are mapry schemas, what the schema of a
    document is, and which numbers satisfy the stated bounds. *)
From Verif Require Import Base M_Naming M_Schema M_Strftime M_Dec.
From Coq Require Import String List Arith NArith ZArith QArith Bool Permutation Floats.SpecFloat.
Import ListNotations.
Open Scope list_scope.
Local Open Scope nat_scope.

(** * Members of objects *)

(** The object has the member [k], with a value in [P]. *)
Definition member (l : list (str * jval)) (k : string) (P : jval -> Prop) : Prop :=
  exists v, In (s_ k, v) l /\ P v.
(** The member [k], if there is one, has a value in [P]. *)
Definition maybe (l : list (str * jval)) (k : string) (P : jval -> Prop) : Prop :=
  forall v, In (s_ k, v) l -> P v.
Definition no_member (l : list (str * jval)) (k : string) : Prop := ~ In (s_ k) (keys l).
(** There are no other members. *)
Definition only (l : list (str * jval)) (ks : list string) : Prop :=
  forall k, In k (keys l) -> In k (map s_ ks).

Definition a_text (P : str -> Prop) (v : jval) : Prop := exists s, v = JStr s /\ P s.
Definition any (s : str) : Prop := True.
Definition a_boolean (v : jval) : Prop := exists b, v = JBool b.
Definition an_integer (v : jval) : Prop := exists z, v = JInt z.
Definition a_size (v : jval) : Prop := exists z, v = JInt z /\ (0 <= z)%Z.
Definition a_number (v : jval) : Prop := (exists z, v = JInt z) \/ (exists f, v = JFloat f).
Definition one_of (l : list string) (s : str) : Prop := In s (map s_ l).

(** * Shapes of names and texts *)

Definition capital (c : chr) : Prop := (65 <= c <= 90)%N.
Definition small (c : chr) : Prop := (97 <= c <= 122)%N.
Definition letter (c : chr) : Prop := capital c \/ small c.
Definition digit (c : chr) : Prop := (48 <= c <= 57)%N.
Definition word (c : chr) : Prop := letter c \/ digit c \/ c = 95%N.

(** The [$] at the end of a pattern also matches before a final newline. *)
Definition lax (P : str -> Prop) (s : str) : Prop := P s \/ exists r, s = r ++ [10%N] /\ P r.

(** Starts with a [first], goes on with letters, digits and underscores, and does
    not end with an underscore. *)
Definition identifier (first : chr -> Prop) (s : str) : Prop :=
  exists c r, s = c :: r /\ first c /\ (forall x, In x r -> word x) /\ forall q, s <> q ++ [95%N].
Definition starts (first : chr -> Prop) (s : str) : Prop := exists c r, s = c :: r /\ first c.
(** Starts with a small letter, ends with a full stop, on one line. *)
Definition description_shape (s : str) : Prop :=
  exists m, starts small (m ++ [46%N]) /\ s = m ++ [46%N] /\ ~ In 10%N m.
Definition plain_name (s : str) : Prop := exists c r, s = c :: r /\ letter c /\ forall x, In x r -> word x.
(** Names with a separator between them. *)
Definition qualified (sep : string) (s : str) : Prop :=
  exists parts, parts <> [] /\ (forall p, In p parts -> plain_name p) /\ s = join (s_ sep) parts.
Definition blank (s : str) : Prop := forall c, In c s -> c = 32%N \/ c = 9%N.

(** * Numbers *)

Inductive number := Fin (q : Q) | PInf | MInf | NaN.
Definition power2 (e : Z) : Q := if (0 <=? e)%Z then inject_Z (2 ^ e) else / inject_Z (2 ^ (- e)).
Definition value (v : jval) : number :=
  match v with
  | JInt z => Fin (inject_Z z)
  | JFloat (S754_zero _) => Fin 0
  | JFloat (S754_infinity s) => if s then MInf else PInf
  | JFloat (S754_finite s m e) => Fin (inject_Z (if s then Zneg m else Zpos m) * power2 e)
  | _ => NaN
  end.
(** [below a b]: [a < b]; not a number is neither below nor above a number. *)
Definition below (a b : number) : Prop :=
  match a, b with
  | NaN, _ | _, NaN => False
  | Fin p, Fin q => (p < q)%Q
  | MInf, MInf => False
  | MInf, _ => True
  | Fin _, PInf => True
  | _, _ => False
  end.
Definition same (a b : number) : Prop :=
  match a, b with
  | Fin p, Fin q => (p == q)%Q
  | PInf, PInf | MInf, MInf => True
  | _, _ => False
  end.

(** The number [x] is within the bounds given in the definition [l]. *)
Definition within (l : list (str * jval)) (x : number) : Prop :=
  (forall m, In (s_ "minimum", m) l ->
     below (value m) x \/ (~ In (s_ "exclusive_minimum", JBool true) l /\ same (value m) x)) /\
  (forall m, In (s_ "maximum", m) l ->
     below x (value m) \/ (~ In (s_ "exclusive_maximum", JBool true) l /\ same x (value m))).

(** The minimum is not above the maximum, and below it if one is exclusive. *)
Definition range_stated (l : list (str * jval)) : Prop :=
  forall a b, In (s_ "minimum", a) l -> In (s_ "maximum", b) l ->
    ~ below (value b) (value a) /\
    (In (s_ "exclusive_minimum", JBool true) l \/ In (s_ "exclusive_maximum", JBool true) l ->
     ~ same (value a) (value b)).
Definition sizes_stated (l : list (str * jval)) : Prop :=
  forall a b, In (s_ "minimum_size", JInt a) l -> In (s_ "maximum_size", JInt b) l -> (a <= b)%Z.

(** * Documents *)

Section Document.
  Variable re_ok : str -> bool.    (** the text is a regular expression *)
  Variable ordered : bool.         (** the order of the members is known *)

  Section Types.
    Variable names : list str.     (** the composites *)

    (** The members which every definition may have; [top] for the definition of a
        property, in contrast to that of the values of an array or a map. *)
    Definition members (top : bool) (l : list (str * jval)) (extra : list string) : Prop :=
      only l (["type"; "description"]%string ++ (if top then ["json"; "optional"]%string else []) ++ extra).
    Definition of_type (l : list (str * jval)) (t : string) : Prop := In (s_ "type", JStr (s_ t)) l.
    Definition described (l : list (str * jval)) : Prop := maybe l "description" (a_text any).

    Inductive type_ok (top : bool) : jval -> Prop :=
    | ok_simple t l :
        In t ["boolean"; "duration"; "time_zone"]%string -> of_type l t -> described l ->
        members top l [] -> type_ok top (JObj l)
    | ok_number t l :
        (t = "integer"%string /\ maybe l "minimum" an_integer /\ maybe l "maximum" an_integer) \/
        (t = "float"%string /\ maybe l "minimum" a_number /\ maybe l "maximum" a_number) ->
        of_type l t -> described l ->
        members top l ["minimum"; "maximum"; "exclusive_minimum"; "exclusive_maximum"]%string ->
        maybe l "exclusive_minimum" a_boolean -> maybe l "exclusive_maximum" a_boolean ->
        range_stated l -> type_ok top (JObj l)
    | ok_text t l :
        In t ["string"; "path"]%string -> of_type l t -> described l ->
        members top l ["pattern"]%string -> maybe l "pattern" (a_text (fun p => re_ok p = true)) ->
        type_ok top (JObj l)
    | ok_time t l :
        of_type l t -> described l -> members top l ["format"]%string ->
        maybe l "format" (a_text (fun f =>
          (t = "date"%string /\ date_format_valid f = true) \/
          (t = "time"%string /\ time_format_valid f = true) \/
          (t = "datetime"%string /\ datetime_format_valid f = true))) ->
        In t ["date"; "time"; "datetime"]%string -> type_ok top (JObj l)
    | ok_array l v :
        of_type l "array" -> described l ->
        members top l ["values"; "minimum_size"; "maximum_size"]%string ->
        maybe l "minimum_size" a_size -> maybe l "maximum_size" a_size -> sizes_stated l ->
        In (s_ "values", v) l -> type_ok false v -> type_ok top (JObj l)
    | ok_map l v :
        of_type l "map" -> described l -> members top l ["values"]%string ->
        In (s_ "values", v) l -> type_ok false v -> type_ok top (JObj l)
    | ok_composite n l :
        In n names -> In (s_ "type", JStr n) l -> members top l [] -> type_ok top (JObj l).

    Definition property_ok (v : jval) : Prop :=
      exists l, v = JObj l /\ member l "description" (a_text any) /\
        maybe l "json" (a_text any) /\ maybe l "optional" a_boolean /\
        (ordered = true -> exists t d r, l = (s_ "type", t) :: (s_ "description", d) :: r) /\
        (forall n, In (s_ "type", JStr n) l -> exists c, In c n /\ letter c) /\
        type_ok true v.

    (** [reserved]: the names which the properties must not have. *)
    Definition properties_ok (reserved : list string) (v : jval) : Prop :=
      exists l, v = JObj l /\
        forall k p, In (k, p) l ->
          lax (identifier letter) k /\ ~ In k (map s_ reserved) /\ property_ok p.

    Definition class_ok (v : jval) : Prop :=
      exists l, v = JObj l /\ only l ["name"; "description"; "plural"; "id_pattern"; "properties"]%string /\
        member l "name" (a_text (lax (identifier capital))) /\
        member l "description" (a_text (lax description_shape)) /\
        maybe l "plural" (a_text (lax (identifier capital))) /\
        maybe l "id_pattern" (a_text (fun p => re_ok p = true)) /\
        maybe l "properties" (properties_ok ["id"]%string).

    Definition embed_ok (v : jval) : Prop :=
      exists l, v = JObj l /\ only l ["name"; "description"; "properties"]%string /\
        member l "name" (a_text (starts capital)) /\
        member l "description" (a_text (lax description_shape)) /\
        maybe l "properties" (properties_ok []).
  End Types.

  Definition cpp_ok (v : jval) : Prop :=
    exists l, v = JObj l /\
      only l ["namespace"; "path_as"; "optional_as"; "datetime_library"; "indention"]%string /\
      member l "namespace" (a_text (lax (qualified "::"))) /\
      member l "path_as" (a_text (one_of ["std::filesystem::path"; "boost::filesystem::path"]%string)) /\
      member l "optional_as"
        (a_text (one_of ["boost::optional"; "std::optional"; "std::experimental::optional"]%string)) /\
      member l "datetime_library" (a_text (one_of ["ctime"; "date.h"]%string)) /\
      maybe l "indention" (a_text (lax blank)).
  Definition go_ok (v : jval) : Prop :=
    exists l, v = JObj l /\ only l ["package"]%string /\ member l "package" (a_text (starts letter)).
  Definition py_ok (v : jval) : Prop :=
    exists l, v = JObj l /\
      only l ["module_name"; "path_as"; "timezone_as"; "indention"]%string /\
      member l "module_name" (a_text (lax (qualified "."))) /\
      member l "path_as" (a_text (one_of ["str"; "pathlib.Path"]%string)) /\
      member l "timezone_as" (a_text (one_of ["str"; "pytz.timezone"]%string)) /\
      maybe l "indention" (a_text (lax blank)).

  (** [name_of v n]: the object [v] states the name [n]. *)
  Definition name_of (v : jval) (n : str) : Prop := exists l, v = JObj l /\ In (s_ "name", JStr n) l.
  (** The list under [k], empty if there is no such member. *)
  Definition list_under (l : list (str * jval)) (k : string) (xs : list jval) : Prop :=
    In (s_ k, JArr xs) l \/ (no_member l k /\ xs = []).
  (** The plural which the class [v] states, or the one of its name. *)
  Definition plural_of (v : jval) (p : str) : Prop :=
    exists l, v = JObj l /\
      (In (s_ "plural", JStr p) l \/
       (no_member l "plural" /\ exists n, In (s_ "name", JStr n) l /\ p = plural n)).

  Inductive document : jval -> Prop :=
  | document_of l n classes embeds cns ens :
      only l ["name"; "description"; "cpp"; "go"; "py"; "classes"; "embeds"; "properties"]%string ->
      (ordered = true -> exists a d r, l = (s_ "name", a) :: (s_ "description", d) :: r) ->
      In (s_ "name", JStr n) l -> starts capital n ->
      member l "description" (a_text (lax description_shape)) ->
      maybe l "cpp" cpp_ok -> maybe l "go" go_ok -> maybe l "py" py_ok ->
      list_under l "classes" classes -> list_under l "embeds" embeds ->
      Forall2 name_of classes cns -> Forall2 name_of embeds ens ->
      NoDup (n :: cns ++ ens) ->
      (forall c, In c classes -> class_ok (n :: cns ++ ens) c) ->
      (forall e, In e embeds -> embed_ok (n :: cns ++ ens) e) ->
      maybe l "properties" (properties_ok (n :: cns ++ ens) []) ->
      (forall ps c p, In (s_ "properties", JObj ps) l -> In c classes -> plural_of c p ->
         ~ In (lower p) (keys ps)) ->
      document (JObj l).
End Document.

(** The members of the graph [l] itself, of one of its classes or embeds. *)
Inductive composite_in (l : list (str * jval)) : list (str * jval) -> Prop :=
| the_graph : composite_in l l
| a_class cs c : list_under l "classes" cs -> In (JObj c) cs -> composite_in l c
| an_embed es e : list_under l "embeds" es -> In (JObj e) es -> composite_in l e.
(** [m] defines the type of a property, or that of the values of an array or map. *)
Inductive defines (l : list (str * jval)) : list (str * jval) -> Prop :=
| defines_property c ps k m :
    composite_in l c -> In (s_ "properties", JObj ps) c -> In (k, JObj m) ps -> defines l m
| defines_values m m' : defines l m -> In (s_ "values", JObj m') m -> defines l m'.

(** * Exceptional documents *)

(** [w] occurs in [v]. *)
Inductive part (w : jval) : jval -> Prop :=
| part_itself : part w w
| part_array l v : In v l -> part w v -> part w (JArr l)
| part_object l k v : In (k, v) l -> part w v -> part w (JObj l).

(** Each definition of the values of an array or a map names a type by a text. *)
Definition values_typed (v : jval) : Prop :=
  forall l m, part (JObj l) v -> of_type l "array" \/ of_type l "map" -> In (s_ "values", JObj m) l ->
    exists n, In (s_ "type", JStr n) m.
(** No definition has the graph as its type. *)
Definition graph_not_a_type (v : jval) : Prop :=
  forall n l, name_of v n -> part (JObj l) v -> ~ In (s_ "type", JStr n) l.
(** There are no infinite numbers and none that is not a number. *)
Definition finite_numbers (v : jval) : Prop :=
  forall f, part (JFloat f) v -> exists q, value (JFloat f) = Fin q.
(** All numbers are integers, though perhaps written as 1.0 or 1e3. *)
Definition integral_numbers (v : jval) : Prop :=
  forall f, part (JFloat f) v -> exists z, same (value (JFloat f)) (Fin (inject_Z z)).

(** The plurals of the classes start with a capital letter. *)
Definition capital_plurals (v : jval) : Prop :=
  forall l cs c p, v = JObj l -> In (s_ "classes", JArr cs) l -> In c cs -> plural_of c p -> starts capital p.

(** * The schema of a document *)

(** The number [v] is stated exactly, or rounded toward zero. *)
Definition exact (v : jval) (z : option Z) : Prop :=
  exists x, z = Some x /\ same (value v) (Fin (inject_Z x)).
Definition toward_zero (v : jval) (z : option Z) : Prop :=
  exists x q, z = Some x /\ value v = Fin q /\
    ((0 <= q /\ inject_Z x <= q /\ q < inject_Z (x + 1))%Q \/
     (q <= 0 /\ q <= inject_Z x /\ inject_Z (x - 1) < q)%Q).

Section Describes.
  Variable is_number : jval -> option Z -> Prop.   (** the bound for the number of the document *)
  Variable ordered : bool.
  Variable cns ens : list str.     (** the classes and the embeds *)

  (** The member [k], if there, is described by [P]; otherwise there is [d]. *)
  Definition stated {A} (l : list (str * jval)) (k : string) (P : jval -> A -> Prop) (d a : A) : Prop :=
    (exists v, In (s_ k, v) l /\ P v a) \/ (no_member l k /\ a = d).
  Definition is_text (v : jval) (s : str) : Prop := v = JStr s.
  Definition is_flag (v : jval) (b : bool) : Prop := v = JBool b.
  Definition is_optional_text (v : jval) (s : option str) : Prop := exists x, s = Some x /\ v = JStr x.

  Definition bounds_described (l : list (str * jval)) (b : bounds) : Prop :=
    stated l "minimum" is_number None (b_min b) /\
    stated l "exclusive_minimum" is_flag false (b_exmin b) /\
    stated l "maximum" is_number None (b_max b) /\
    stated l "exclusive_maximum" is_flag false (b_exmax b).

  Inductive describes : jval -> ty -> Prop :=
  | d_boolean l : of_type l "boolean" -> describes (JObj l) TBool
  | d_time_zone l : of_type l "time_zone" -> describes (JObj l) TTimeZone
  | d_duration l : of_type l "duration" -> describes (JObj l) TDuration
  | d_integer l b : of_type l "integer" -> bounds_described l b -> describes (JObj l) (TInt b)
  | d_float l b : of_type l "float" -> bounds_described l b -> describes (JObj l) (TFloat b)
  | d_string l p : of_type l "string" -> stated l "pattern" is_optional_text None p -> describes (JObj l) (TStr p)
  | d_path l p : of_type l "path" -> stated l "pattern" is_optional_text None p -> describes (JObj l) (TPath p)
  | d_date l f : of_type l "date" -> stated l "format" is_text (s_ "%Y-%m-%d") f -> describes (JObj l) (TDate f)
  | d_time l f : of_type l "time" -> stated l "format" is_text (s_ "%H:%M:%S") f -> describes (JObj l) (TTime f)
  | d_datetime l f :
      of_type l "datetime" -> stated l "format" is_text (s_ "%Y-%m-%dT%H:%M:%SZ") f ->
      describes (JObj l) (TDatetime f)
  | d_array l v t mn mx :
      of_type l "array" -> In (s_ "values", v) l -> describes v t ->
      stated l "minimum_size" is_number None mn -> stated l "maximum_size" is_number None mx ->
      describes (JObj l) (TArray t mn mx)
  | d_map l v t : of_type l "map" -> In (s_ "values", v) l -> describes v t -> describes (JObj l) (TMap t)
  | d_class l n : In (s_ "type", JStr n) l -> In n cns -> describes (JObj l) (TClass n)
  | d_embed l n : In (s_ "type", JStr n) l -> In n ens -> describes (JObj l) (TEmbed n).

  Definition describes_property (ref : str) (kv : str * jval) (p : prop) : Prop :=
    exists l, snd kv = JObj l /\ p_name p = fst kv /\ p_ref p = ref ++ s_ "/" ++ fst kv /\
      In (s_ "description", JStr (p_description p)) l /\
      stated l "json" is_text (fst kv) (p_json p) /\
      stated l "optional" is_flag false (p_optional p) /\
      describes (snd kv) (p_type p).

  (** The properties of the composite [l] at [ref], in the order of the document if
      that is known. *)
  Definition describes_properties (ref : str) (l : list (str * jval)) (ps : list prop) : Prop :=
    (no_member l "properties" /\ ps = []) \/
    exists ms qs, In (s_ "properties", JObj ms) l /\ Permutation ms qs /\ (ordered = true -> qs = ms) /\
      Forall2 (describes_property ref) qs ps.

  Definition describes_class (ref : str) (v : jval) (c : cls) : Prop :=
    exists l, v = JObj l /\ In (s_ "name", JStr (c_name c)) l /\ In (s_ "description", JStr (c_description c)) l /\
      plural_of v (c_plural c) /\ stated l "id_pattern" is_optional_text None (c_id_pattern c) /\
      c_ref c = ref /\ describes_properties ref l (c_props c).
  Definition describes_embed (ref : str) (v : jval) (e : embed) : Prop :=
    exists l, v = JObj l /\ In (s_ "name", JStr (e_name e)) l /\ In (s_ "description", JStr (e_description e)) l /\
      e_ref e = ref /\ describes_properties ref l (e_props e).
End Describes.

(** The graph [g] is the one which the document [v] at [ref] describes. *)
Definition describes_graph (num : jval -> option Z -> Prop) (ordered : bool) (ref : str) (v : jval) (g : graph) : Prop :=
  let cns := map c_name (g_classes g) in
  let ens := map e_name (g_embeds g) in
  exists l classes embeds, v = JObj l /\
    In (s_ "name", JStr (g_name g)) l /\ In (s_ "description", JStr (g_description g)) l /\ g_ref g = ref /\
    list_under l "classes" classes /\ list_under l "embeds" embeds /\
    length classes = length (g_classes g) /\ length embeds = length (g_embeds g) /\
    (forall i c d, nth_error classes i = Some d -> nth_error (g_classes g) i = Some c ->
       describes_class num ordered cns ens (ref ++ s_ "/classes/" ++ dec_nat i) d c) /\
    (forall i e d, nth_error embeds i = Some d -> nth_error (g_embeds g) i = Some e ->
       describes_embed num ordered cns ens (ref ++ s_ "/embeds/" ++ dec_nat i) d e) /\
    describes_properties num ordered cns ens ref l (g_props g).

(** The settings under [k]. *)
Definition describes_settings {A} (l : list (str * jval)) (k : string)
    (P : list (str * jval) -> A -> Prop) (a : option A) : Prop :=
  stated l k (fun v a => exists m x, v = JObj m /\ a = Some x /\ P m x) None a.
Definition describes_cpp (l : list (str * jval)) (c : cpp_conf) : Prop :=
  In (s_ "namespace", JStr (cc_namespace c)) l /\ In (s_ "path_as", JStr (cc_path_as c)) l /\
  In (s_ "optional_as", JStr (cc_optional_as c)) l /\
  In (s_ "datetime_library", JStr (cc_datetime_library c)) l /\
  stated l "indention" is_text (s_ "  ") (cc_indention c).
Definition describes_go (l : list (str * jval)) (c : go_conf) : Prop :=
  In (s_ "package", JStr (gc_package c)) l.
Definition describes_py (l : list (str * jval)) (c : py_conf) : Prop :=
  In (s_ "module_name", JStr (pc_module_name c)) l /\ In (s_ "path_as", JStr (pc_path_as c)) l /\
  In (s_ "timezone_as", JStr (pc_timezone_as c)) l /\
  stated l "indention" is_text (s_ "    ") (pc_indention c).

Definition describes_schema (num : jval -> option Z -> Prop) (ordered : bool) (ref : str) (v : jval) (s : schema) : Prop :=
  describes_graph num ordered ref v (sc_graph s) /\
  exists l, v = JObj l /\ describes_settings l "cpp" describes_cpp (sc_cpp s) /\
    describes_settings l "go" describes_go (sc_go s) /\ describes_settings l "py" describes_py (sc_py s).
