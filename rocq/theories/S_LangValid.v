(** What it means that the identifiers of the generated code do not clash (C36-C38). *)
From Coq Require Import String List Arith NArith ZArith Bool.
From Verif Require Import Base M_Naming M_Schema M_Strftime M_LangValid S_Conform S_Strftime.
Import ListNotations.
Open Scope list_scope.

(** * Identifiers *)

(** [i] is the name [n] in lower case. *)
Definition lowered (n i : str) : Prop := n <> [] /\ i = lower n.

(** [i] is made of the parts of [n] between the underscores, which are not empty, each
    with a capital first letter. *)
Definition with_capital (p : str) : str := match p with c :: r => upper_c c :: r | [] => [] end.
Definition upper_camel (n i : str) : Prop :=
  exists parts, n = join (s_ "_") parts /\ parts <> [] /\
    (forall p, In p parts -> p <> [] /\ ~ In 95%N p) /\ i = concat (map with_capital parts).
(** The same, for a name which starts with a capital letter. *)
Definition camel_composite (n i : str) : Prop :=
  (exists c r, n = c :: r /\ (65 <= c <= 90)%N) /\ upper_camel n i.

(** * Keywords *)

(** The Python Language Reference, 2.3.1, up to 3.6 *)
Definition python36_keywords : list str :=
  map s_ ["False"; "None"; "True"; "and"; "as"; "assert"; "break"; "class"; "continue"; "def"; "del"; "elif";
          "else"; "except"; "finally"; "for"; "from"; "global"; "if"; "import"; "in"; "is"; "lambda"; "nonlocal";
          "not"; "or"; "pass"; "raise"; "return"; "try"; "while"; "with"; "yield"]%string.
(** since 3.7 *)
Definition python37_keywords : list str := s_ "async" :: s_ "await" :: python36_keywords.

(** The Go Programming Language Specification, Keywords *)
Definition go_keywords : list str :=
  map s_ ["break"; "case"; "chan"; "const"; "continue"; "default"; "defer"; "else"; "fallthrough"; "for"; "func";
          "go"; "goto"; "if"; "import"; "interface"; "map"; "package"; "range"; "return"; "select"; "struct";
          "switch"; "type"; "var"]%string.

(** ISO C++11 to C++17, 5.11 [lex.key] and the alternative tokens of 5.5 *)
Definition cpp_keywords : list str :=
  map s_ ["alignas"; "alignof"; "asm"; "auto"; "bool"; "break"; "case"; "catch"; "char"; "char16_t"; "char32_t";
          "class"; "const"; "constexpr"; "const_cast"; "continue"; "decltype"; "default"; "delete"; "do"; "double";
          "dynamic_cast"; "else"; "enum"; "explicit"; "export"; "extern"; "false"; "float"; "for"; "friend"; "goto";
          "if"; "inline"; "int"; "long"; "mutable"; "namespace"; "new"; "noexcept"; "nullptr"; "operator"; "private";
          "protected"; "public"; "register"; "reinterpret_cast"; "return"; "short"; "signed"; "sizeof"; "static";
          "static_assert"; "static_cast"; "struct"; "switch"; "template"; "this"; "thread_local"; "throw"; "true";
          "try"; "typedef"; "typeid"; "typename"; "union"; "unsigned"; "using"; "virtual"; "void"; "volatile";
          "wchar_t"; "while"; "and"; "and_eq"; "bitand"; "bitor"; "compl"; "not"; "not_eq"; "or"; "or_eq"; "xor";
          "xor_eq"]%string.

(** Keywords since C++20 and of the technical specifications *)
Definition cpp_later : list str :=
  map s_ ["atomic_cancel"; "atomic_commit"; "atomic_noexcept"; "concept"; "co_await"; "co_return"; "co_yield"; "import";
          "module"; "requires"; "synchronized"]%string.

(** * Clashes *)

Section Clash.
  Variable keywords : list str.
  Variable field composite : str -> str -> Prop.
  Variable own : str.               (** the field with the identifier of an instance *)

  (** The names have different identifiers, which are no keywords. *)
  Definition usable (convert : str -> str -> Prop) (names : list str) : Prop :=
    exists ids, Forall2 convert names ids /\ NoDup ids /\ forall i, In i ids -> ~ In i keywords.

  (** The fields of the structures do not clash; those of the graph include the
      registries. *)
  Definition fields_usable (g : graph) : Prop :=
    (forall c, In c (g_classes g) ->
       usable field (map p_name (c_props c)) /\
       forall p, In p (c_props c) -> ~ field (p_name p) own) /\
    (forall e, In e (g_embeds g) -> usable field (map p_name (e_props e))) /\
    usable field (map p_name (g_props g) ++ map c_plural (g_classes g)).

  (** No clashes at all. *)
  Definition no_clash (g : graph) : Prop :=
    usable composite (g_name g :: map c_name (g_classes g) ++ map e_name (g_embeds g)) /\ fields_usable g.

  (** No clashes, if the identifier of the graph may be that of a class or an embed. *)
  Definition no_clash_but_graph (g : graph) : Prop :=
    usable composite [g_name g] /\ usable composite (map c_name (g_classes g) ++ map e_name (g_embeds g)) /\
    fields_usable g.

  (** The identifier of the graph is not that of a class or an embed. *)
  Definition graph_apart (g : graph) : Prop :=
    forall n i, In n (map c_name (g_classes g) ++ map e_name (g_embeds g)) -> composite (g_name g) i -> ~ composite n i.

  (** All names have identifiers. *)
  Definition convertible (g : graph) : Prop :=
    (forall n, In n (g_name g :: map c_name (g_classes g) ++ map e_name (g_embeds g)) -> exists i, composite n i) /\
    (forall ps p, In ps (composites g) -> In p ps -> exists i, field (p_name p) i) /\
    (forall c, In c (g_classes g) -> exists i, field (c_plural c) i).

  (** ** The reported errors *)

  (** There is a name with the identifier [i] at [ref]; there are two, at [other] and
      at [ref]. *)
  Definition once (convert : str -> str -> Prop) (l : list (str * str)) (i ref : str) : Prop :=
    exists n, In (n, ref) l /\ convert n i.
  Definition twice (convert : str -> str -> Prop) (l : list (str * str)) (i other ref : str) : Prop :=
    exists a b c m n, l = a ++ (m, other) :: b ++ (n, ref) :: c /\ convert m i /\ convert n i.

  Definition of_props (ps : list prop) : list (str * str) := map (fun p => (p_name p, p_ref p)) ps.
  Definition of_registries (g : graph) : list (str * str) := map (fun c => (c_plural c, c_ref c)) (g_classes g).
  Definition of_composites (g : graph) : list (str * str) :=
    (g_name g, g_ref g) :: map (fun c => (c_name c, c_ref c)) (g_classes g) ++
    map (fun e => (e_name e, e_ref e)) (g_embeds g).

  Definition real (g : graph) (e : lerr) : Prop :=
    match le_kind e with
    | KKeyword i =>
        In i keywords /\
        (once composite (of_composites g) i (le_ref e) \/
         exists ps, In ps (composites g) /\ once field (of_props ps) i (le_ref e))
    | KConflict i other =>
        twice composite (of_composites g) i other (le_ref e) \/
        exists ps, In ps (composites g) /\ twice field (of_props ps) i other (le_ref e)
    | KReservedId i =>
        i = own /\ exists c, In c (g_classes g) /\ once field (of_props (c_props c)) i (le_ref e)
    | KRegistryKeyword i => In i keywords /\ once field (of_registries g) i (le_ref e)
    | KRegistryProperty i other =>
        once field (of_props (g_props g)) i other /\ once field (of_registries g) i (le_ref e)
    | KRegistryRegistry i other => twice field (of_registries g) i other (le_ref e)
    | KDirective _ => False
    end.
End Clash.

(** The identifiers which the generated Go code declares besides the composites. *)
Definition go_reserved (composite : str -> str -> Prop) (g : graph) (i : str) : Prop :=
  In i (map s_ ["Error"; "Errors"; "NewErrors"]%string) \/
  exists n j, In n (g_name g :: map c_name (g_classes g) ++ map e_name (g_embeds g)) /\ composite n j /\
    (i = j ++ s_ "FromJSONable" \/ i = j ++ s_ "ToJSONable").

(** * Formats *)

(** The elements of the layouts of Go which the validation knows. *)
Definition layout_elements : list str :=
  map s_ ["Sunday"; "Sun"; "January"; "Jan"; "02"; "_2"; "01"; "2006"; "06"; "15"; "03"; "3"; "04"; "pm"; "PM"; "05";
          "-0700"; "MST"]%string.

(** The format [f] contains [w] between its directives. *)
Definition literally (w f : str) : Prop :=
  exists a b, f = a ++ w ++ b /\ format_over all_letters a.

(** The format is well-formed, and its text does not contain elements of layouts. *)
Definition go_usable (f : str) : Prop :=
  format_over all_letters f /\ forall w, In w layout_elements -> ~ literally w f.

(** The format of a type. *)
Definition has_format (t : ty) (f : str) : Prop := t = TDate f \/ t = TTime f \/ t = TDatetime f.
