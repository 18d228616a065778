(** When the functions of a C++ source are well-typed (C62): the part of the C++ language, of
    its standard library and of the libraries jsoncpp, date and boost which the generated code
    needs.

    A variable is given by the thing which its name means (C58); [a->b] is written as
    [( * a).b]. *)
From Coq Require Import String List Arith NArith ZArith Bool.
From Verif Require Import Base M_Naming M_Schema S_Scope S_Compare.
Import ListNotations.
Open Scope list_scope.

(** * Types *)

Inductive ctype :=
| CVoid | CBool | CInt | CUnsigned | CInt64 | CDouble | CChar
| CNull                         (** the type of [nullptr] *)
| CText                         (** [const char*], also that of the literals *)
| CString                       (** [std::string] *)
| CNamed (x : str)              (** a structure or a class, of the source or of a library *)
| CPointer (constant : bool) (t : ctype)
| COptional (t : ctype)         (** of the standard library or of boost, which agree in what is used *)
| CVector (t : ctype)
| CMap (t : ctype)              (** [std::map<std::string, t>] *)
| CPair (t : ctype)             (** [std::pair<const std::string, t>] *)
| CUnique (t : ctype)           (** [std::unique_ptr<t>] *)
| CBit                          (** [std::vector<bool>::reference] *)
| CParsing.                     (** what [date::parse] gives *)

(** The value categories: lvalues which can be changed, other lvalues, rvalues *)
Inductive category := Changeable | Constant | Temporary.
Definition lvalue (constant : bool) : category := if constant then Constant else Changeable.

(** The types of the libraries *)
Definition t_value : ctype := CNamed (s_ "Json::Value").
Definition t_value_type : ctype := CNamed (s_ "Json::ValueType").
Definition t_iterator : ctype := CNamed (s_ "Json::ValueConstIterator").
Definition t_tm : ctype := CNamed (s_ "tm").
Definition t_regex : ctype := CNamed (s_ "std::regex").
Definition t_stream : ctype := CNamed (s_ "std::istringstream").
Definition t_nanoseconds : ctype := CNamed (s_ "std::chrono::nanoseconds").
Definition t_seconds : ctype := CNamed (s_ "std::chrono::seconds").
Definition t_local_days : ctype := CNamed (s_ "date::local_days").
Definition t_local_seconds : ctype := CNamed (s_ "date::local_seconds").
Definition t_time_of_day : ctype := CNamed (s_ "date::time_of_day<std::chrono::seconds>").
Definition t_time_zone : ctype := CNamed (s_ "date::time_zone").
Definition t_runtime_error : ctype := CNamed (s_ "std::runtime_error").
Definition t_invalid_argument : ctype := CNamed (s_ "std::invalid_argument").
Definition paths : list str := [s_ "std::filesystem::path"; s_ "boost::filesystem::path"].
Definition path_types : list ctype := map CNamed paths.
(** That of the generated header [parse.h] *)
Definition t_parse_errors : ctype := CNamed (s_ "parse::Errors").

Definition arithmetic (t : ctype) : Prop := In t [CBool; CChar; CInt; CUnsigned; CInt64; CDouble].
Definition numeric (t : ctype) : Prop := In t [CInt; CUnsigned; CInt64; CDouble].
(** Types of the libraries whose values are copied *)
Definition values : list ctype :=
  [CBool; CInt; CUnsigned; CInt64; CDouble; CChar; CText; CString; t_value; t_value_type; t_iterator; t_tm; t_regex; t_nanoseconds; t_seconds;
   t_local_days; t_local_seconds; t_time_of_day; t_invalid_argument] ++ path_types.
Fixpoint copyable (t : ctype) : Prop :=
  match t with
  | COptional u | CVector u | CMap u => copyable u
  | CPointer _ _ => True
  | _ => In t values
  end.

(** Implicit conversions of an expression *)
Inductive converts : ctype -> category -> ctype -> Prop :=
| converts_copy t k : copyable t -> converts t k t
| converts_move t : converts t Temporary t
| converts_arithmetic t k u : arithmetic t -> arithmetic u -> converts t k u
| converts_text k : converts CText k CString
| converts_null k c t : converts CNull k (CPointer c t)
| converts_constant k t : converts (CPointer false t) k (CPointer true t)
| converts_optional t k u : converts t k u -> converts t k (COptional u)
| converts_json t k : In t [CBool; CInt; CInt64; CDouble; CText; CString; t_value_type] -> converts t k t_value.

(** Parameters: by value, or by a reference to a constant *)
Inductive param := ByValue (t : ctype) | ByReference (t : ctype).
Definition fits (t : ctype) (k : category) (p : param) : Prop :=
  match p with ByValue u => converts t k u | ByReference u => t = u \/ converts t k u end.
Definition param_type (p : param) : ctype := match p with ByValue t | ByReference t => t end.
Definition param_constant (p : param) : bool := match p with ByValue _ => false | ByReference _ => true end.

Record csignature := CSig { cs_params : list param; cs_result : ctype }.

(** What the source declares: structures with their members, functions and constants.  A
    function can be overloaded. *)
Record source := Source {
  so_structs : list (str * list (str * ctype));
  so_functions : list (str * csignature);
  so_constants : list (str * ctype) }.

Definition library_calls : list (str * csignature) :=
  [(s_ "strlen", CSig [ByValue CText] CUnsigned);
   (s_ "strptime", CSig [ByValue CText; ByValue CText; ByValue (CPointer false t_tm)] (CPointer false CChar));
   (s_ "std::regex_match", CSig [ByReference CString; ByReference t_regex] CBool);
   (s_ "date::make_time", CSig [ByValue t_seconds] t_time_of_day);
   (s_ "date::locate_zone", CSig [ByReference CString] (CPointer true t_time_zone))].
Definition library_constants : list (str * ctype) :=
  [(s_ "Json::arrayValue", t_value_type); (s_ "Json::objectValue", t_value_type); (s_ "true", CBool); (s_ "false", CBool)].

(** Constructors *)
Definition constructors (t : ctype) (params : list param) : Prop :=
  (t = CString /\ params = [ByReference CString]) \/
  (In t path_types /\ params = [ByReference CString]) \/
  (t = t_tm /\ params = [ByValue CInt]) \/
  (t = t_regex /\ params = [ByReference CString]) \/
  (t = t_stream /\ params = [ByReference CString]) \/
  (t = t_invalid_argument /\ params = [ByReference CString]).

(** Member functions: whether the object can be constant, the parameters and the result *)
Record member := Member { mb_constant : bool; mb_params : list param; mb_result : ctype; mb_category : category }.
Definition reads (params : list param) (t : ctype) : member := Member true params t Temporary.
Definition changes (params : list param) : member := Member false params CVoid Temporary.
Definition value_members : list (str * member) :=
  [(s_ "isBool", reads [] CBool); (s_ "isInt64", reads [] CBool); (s_ "isDouble", reads [] CBool); (s_ "isString", reads [] CBool);
   (s_ "isArray", reads [] CBool); (s_ "isObject", reads [] CBool); (s_ "isMember", reads [ByReference CString] CBool);
   (s_ "asBool", reads [] CBool); (s_ "asInt64", reads [] CInt64); (s_ "asDouble", reads [] CDouble); (s_ "asString", reads [] CString);
   (s_ "type", reads [] t_value_type); (s_ "size", reads [] CUnsigned); (s_ "begin", reads [] t_iterator); (s_ "end", reads [] t_iterator)].
Definition string_members : list (str * member) :=
  [(s_ "size", reads [] CUnsigned); (s_ "empty", reads [] CBool); (s_ "c_str", reads [] CText);
   (s_ "append", Member false [ByReference CString] CString Changeable);
   (s_ "reserve", changes [ByValue CUnsigned]); (s_ "resize", changes [ByValue CUnsigned]); (s_ "clear", changes [])].
(** [constant]: the object is so *)
Definition members (t : ctype) (constant : bool) (m : str) : option member :=
  match t with
  | CString => lookup m string_members
  | COptional u => lookup m [(s_ "emplace", Member false [] u Changeable)]
  | CVector u =>
      lookup m [(s_ "size", reads [] CUnsigned); (s_ "resize", changes [ByValue CUnsigned]);
                (s_ "at", match u with
                          | CBool => Member true [ByValue CUnsigned] (if constant then CBool else CBit) Temporary
                          | _ => Member true [ByValue CUnsigned] u (lvalue constant)
                          end)]
  | CMap u =>
      lookup m [(s_ "empty", reads [] CBool); (s_ "count", reads [ByReference CString] CUnsigned);
                (s_ "at", Member true [ByReference CString] u (lvalue constant))]
  | CUnique u => lookup m [(s_ "get", reads [] (CPointer false u))]
  | CNamed x =>
      if str_eqb x (s_ "Json::Value") then lookup m value_members
      else if str_eqb x (s_ "Json::ValueConstIterator") then lookup m [(s_ "name", reads [] CString)]
      else if mem x paths then lookup m [(s_ "string", reads [] CString)]
      else if str_eqb x (s_ "std::istringstream") then lookup m [(s_ "fail", reads [] CBool)]
      else if str_eqb x (s_ "date::time_of_day<std::chrono::seconds>") then lookup m [(s_ "to_duration", reads [] t_seconds)]
      else if str_eqb x (s_ "date::time_zone") then lookup m [(s_ "name", reads [] CString)]
      else if str_eqb x (s_ "parse::Errors") then
        lookup m [(s_ "add", changes [ByReference CString; ByReference CString]); (s_ "full", reads [] CBool); (s_ "empty", reads [] CBool)]
      else None
  | _ => None
  end.
(** What [date::parse] and [date::format] know *)
Definition dated (t : ctype) : Prop := In t [t_local_days; t_local_seconds; t_seconds].

(** * Expressions and statements *)

Inductive cexpr :=
| EVar (x : thing)
| EConstant (x : str)                     (** a constant of the source or of a library *)
| EMember (e : cexpr) (f : str)
| EIndex (e i : cexpr)
| EDeref (e : cexpr)
| EAddress (e : cexpr)
| EText (x : str)
| EChar (c : N)
| ENumber (z : Z)
| ENull
| ECall (f : str) (args : list cexpr)
| EMethod (e : cexpr) (m : str) (args : list cexpr)
| EConstruct (t : ctype) (args : list cexpr)
| EToString (e : cexpr)                   (** [std::to_string(e)] *)
| EMove (e : cexpr)                       (** [std::move(e)] *)
| EMakeUnique (s : str)                   (** [std::make_unique<s>()] *)
| EParse (format e : cexpr)               (** [date::parse(format, e)] *)
| EFormat (format e : cexpr)              (** [date::format(format, e)] *)
| EExtract (stream e : cexpr)             (** [stream >> e] *)
| EAdd (a b : cexpr)
| ENot (e : cexpr)
| EOr (a b : cexpr)
| EEqual (o : equality) (a b : cexpr)     (** [==] and [!=] *)
| EOrder (o : order) (a b : cexpr).       (** [<], [<=], [>] and [>=] *)

Inductive cstmt :=
| KLet (constant : bool) (t : ctype) (x : thing) (init : option cexpr)   (** [const t x = init;] *)
| KAuto (constant : bool) (x : thing) (e : cexpr)                        (** [const auto x = e;] *)
| KReference (constant : bool) (t : ctype) (x : thing) (e : cexpr)       (** [const t& x = e;] *)
| KAutoReference (x : thing) (e : cexpr)                                 (** [const auto& x = e;] *)
| KAssign (target e : cexpr)
| KAppend (target e : cexpr)                                             (** [target += e;] *)
| KIncrement (e : cexpr)
| KDo (e : cexpr)
| KIf (e : cexpr) (b c : list cstmt)
| KEach (t : option ctype) (x : thing) (e : cexpr) (b : list cstmt)      (** [for (const t& x : e)], [auto] without a type *)
| KFor (t : ctype) (x : thing) (init until : cexpr) (b : list cstmt)     (** [for (t x = init; until; ++x)] *)
| KTry (b : list cstmt) (t : ctype) (x : thing) (c : list cstmt)         (** [try b catch (const t& x) c] *)
| KThrow (e : cexpr)
| KBreak
| KReturn (e : option cexpr).

Record cfunction := CFunction {
  cf_name : str; cf_params : list (thing * param); cf_result : ctype; cf_body : list cstmt }.

(** * The rules *)

(** The variables with their types, and whether they are constant *)
Definition cenv : Type := list (thing * (ctype * bool)).
Inductive known : cenv -> thing -> ctype -> bool -> Prop :=
| known_here G x t c : known ((x, (t, c)) :: G) x t c
| known_before G x t c y u : x <> y -> known G x t c -> known ((y, u) :: G) x t c.

(** Types which hold or do not hold as a condition; types whose values are compared *)
Definition truth (t : ctype) : Prop := match t with CBool | COptional _ => True | _ => False end.
Definition compared (t : ctype) : Prop := In t [CBool; CChar; CInt; CUnsigned; CInt64; CDouble; CString; t_iterator].
(** A literal is of the type [int] or [long]; that of a negative number is its opposite. *)
Definition literal_type (z : Z) : ctype := if (Z.abs z <? 2 ^ 31)%Z then CInt else CInt64.
Definition literal_fits (z : Z) : Prop := (Z.abs z < 2 ^ 63)%Z.

Section Rules.
  Variable so : source.
  Definition overload (f : str) (s : csignature) : Prop := In (f, s) library_calls \/ In (f, s) (so_functions so).
  Definition constant_type (x : str) : option ctype :=
    match lookup x library_constants with Some t => Some t | None => lookup x (so_constants so) end.
  Definition member_type (s f : str) : option ctype :=
    match lookup s (so_structs so) with Some fields => lookup f fields | None => None end.

  (** The type and the value category of an expression *)
  Inductive has (G : cenv) : cexpr -> ctype -> category -> Prop :=
  | has_var x t c : known G x t c -> has G (EVar x) t (lvalue c)
  | has_constant x t : constant_type x = Some t -> has G (EConstant x) t Constant
  | has_member e s k f t : has G e (CNamed s) k -> member_type s f = Some t -> has G (EMember e f) t k
  | has_first e t k : has G e (CPair t) k -> has G (EMember e (s_ "first")) CString Constant
  | has_second e t k : has G e (CPair t) k -> has G (EMember e (s_ "second")) t k
  | has_element e i t k u j : has G e (CVector t) k -> t <> CBool -> has G i u j -> In u [CInt; CUnsigned] -> has G (EIndex e i) t k
  | has_bit e i k u j : has G e (CVector CBool) k -> k <> Changeable -> has G i u j -> In u [CInt; CUnsigned] -> has G (EIndex e i) CBool Temporary
  | has_changeable_bit e i u j : has G e (CVector CBool) Changeable -> has G i u j -> In u [CInt; CUnsigned] -> has G (EIndex e i) CBit Temporary
  | has_entry e i t u j : has G e (CMap t) Changeable -> has G i u j -> converts u j CString -> has G (EIndex e i) t Changeable
  | has_json_entry e i k u j : has G e t_value k -> has G i u j -> In u [CText; CString] -> has G (EIndex e i) t_value k
  | has_json_element e i k u j : has G e t_value k -> has G i u j -> In u [CInt; CUnsigned] -> has G (EIndex e i) t_value k
  | has_deref e c t k : has G e (CPointer c t) k -> has G (EDeref e) t (lvalue c)
  | has_deref_text e k : has G e CText k -> has G (EDeref e) CChar Constant
  | has_deref_unique e t k : has G e (CUnique t) k -> has G (EDeref e) t Changeable
  | has_deref_optional e t k : has G e (COptional t) k -> has G (EDeref e) t k
  | has_deref_iterator e k : has G e t_iterator k -> has G (EDeref e) t_value Constant
  | has_address e t : has G e t Changeable -> has G (EAddress e) (CPointer false t) Temporary
  | has_address_constant e t : has G e t Constant -> has G (EAddress e) (CPointer true t) Temporary
  | has_text x : has G (EText x) CText Temporary
  | has_char c : has G (EChar c) CChar Temporary
  | has_number z : literal_fits z -> has G (ENumber z) (literal_type z) Temporary
  | has_null : has G ENull CNull Temporary
  (** Exactly one of the functions of that name fits. *)
  | has_call f s args :
      overload f s -> applies G args (cs_params s) ->
      (forall s', overload f s' -> s' = s \/ excluded G args (cs_params s')) -> has G (ECall f args) (cs_result s) Temporary
  | has_method e t k m b args :
      has G e t k -> members t (match k with Constant => true | _ => false end) m = Some b -> (k = Constant -> mb_constant b = true) ->
      applies G args (mb_params b) -> has G (EMethod e m args) (mb_result b) (mb_category b)
  | has_construct t params args : constructors t params -> applies G args params -> has G (EConstruct t args) t Temporary
  | has_to_string e t k : has G e t k -> numeric t -> has G (EToString e) CString Temporary
  | has_move e t : has G e t Changeable -> has G (EMove e) t Temporary
  | has_make_unique s fields : lookup s (so_structs so) = Some fields -> has G (EMakeUnique s) (CUnique (CNamed s)) Temporary
  | has_parse f e t : has G f CText Temporary -> has G e t Changeable -> dated t -> has G (EParse f e) CParsing Temporary
  | has_format f e t k : has G f CText Temporary -> has G e t k -> dated t -> has G (EFormat f e) CString Temporary
  | has_extract a b k : has G a t_stream Changeable -> has G b CParsing k -> has G (EExtract a b) t_stream Changeable
  | has_add a b k u j : has G a CUnsigned k -> has G b u j -> In u [CInt; CUnsigned; CInt64] -> has G (EAdd a b) CUnsigned Temporary
  | has_not e t k : has G e t k -> truth t -> has G (ENot e) CBool Temporary
  | has_or a b t k u j : has G a t k -> truth t -> has G b u j -> truth u -> has G (EOr a b) CBool Temporary
  | has_equal o a b t k j : has G a t k -> has G b t j -> compared t -> has G (EEqual o a b) CBool Temporary
  | has_equal_number o a b t k u j : has G a t k -> has G b u j -> numeric t -> numeric u -> has G (EEqual o a b) CBool Temporary
  | has_equal_null o a c t k : has G a (CPointer c t) k -> has G (EEqual o a ENull) CBool Temporary
  | has_order o a b t k u j : has G a t k -> has G b u j -> numeric t -> numeric u -> has G (EOrder o a b) CBool Temporary
  with applies (G : cenv) : list cexpr -> list param -> Prop :=
  | applies_none : applies G [] []
  | applies_arg e args p params t k : has G e t k -> fits t k p -> applies G args params -> applies G (e :: args) (p :: params)
  (** The arguments do not fit: they are too few or too many, or one is of another type. *)
  with excluded (G : cenv) : list cexpr -> list param -> Prop :=
  | excluded_number args params : List.length args <> List.length params -> excluded G args params
  | excluded_here e args p params t k : has G e t k -> ~ fits t k p -> excluded G (e :: args) (p :: params)
  | excluded_later e args p params : excluded G args params -> excluded G (e :: args) (p :: params).

  Definition is_ccall (e : cexpr) : Prop := match e with ECall _ _ | EMethod _ _ _ | EExtract _ _ => True | _ => False end.

  Section Body.
    Variable result : ctype.       (** of the function *)

    (** Statements, in a loop or not *)
    Inductive sound : bool -> cenv -> list cstmt -> Prop :=
    | sound_nil loop G : sound loop G []
    | sound_let loop G c t x e u k l :
        has G e u k -> converts u k t -> sound loop ((x, (t, c)) :: G) l -> sound loop G (KLet c t x (Some e) :: l)
    | sound_let_default loop G t x l : sound loop ((x, (t, false)) :: G) l -> sound loop G (KLet false t x None :: l)
    | sound_auto loop G c x e t k l :
        has G e t k -> converts t k t -> sound loop ((x, (t, c)) :: G) l -> sound loop G (KAuto c x e :: l)
    | sound_reference loop G t x e l :
        has G e t Changeable -> sound loop ((x, (t, false)) :: G) l -> sound loop G (KReference false t x e :: l)
    | sound_constant_reference loop G t x e k l :
        has G e t k -> sound loop ((x, (t, true)) :: G) l -> sound loop G (KReference true t x e :: l)
    | sound_auto_reference loop G x e t k l :
        has G e t k -> sound loop ((x, (t, true)) :: G) l -> sound loop G (KAutoReference x e :: l)
    | sound_assign loop G a e t u k l :
        has G a t Changeable -> has G e u k -> converts u k t -> sound loop G l -> sound loop G (KAssign a e :: l)
    | sound_assign_bit loop G a j e k l :
        has G a CBit j -> has G e CBool k -> sound loop G l -> sound loop G (KAssign a e :: l)
    | sound_append loop G a e u k l :
        has G a CString Changeable -> has G e u k -> In u [CString; CText; CChar] -> sound loop G l -> sound loop G (KAppend a e :: l)
    | sound_increment loop G e t l :
        has G e t Changeable -> numeric t -> sound loop G l -> sound loop G (KIncrement e :: l)
    | sound_do loop G e t k l : is_ccall e -> has G e t k -> sound loop G l -> sound loop G (KDo e :: l)
    | sound_if loop G e t k b c l :
        has G e t k -> truth t -> sound loop G b -> sound loop G c -> sound loop G l -> sound loop G (KIf e b c :: l)
    | sound_each_json loop G x e k b l :
        has G e t_value k -> sound true ((x, (t_value, true)) :: G) b -> sound loop G l -> sound loop G (KEach (Some t_value) x e b :: l)
    | sound_each_entry loop G x e t k b l :
        has G e (CMap t) k -> sound true ((x, (CPair t, true)) :: G) b -> sound loop G l -> sound loop G (KEach None x e b :: l)
    | sound_for loop G t x init u k until b l :
        has G init u k -> converts u k t -> In t [CInt; t_iterator] -> (exists j, has ((x, (t, false)) :: G) until CBool j) ->
        sound true ((x, (t, false)) :: G) b -> sound loop G l -> sound loop G (KFor t x init until b :: l)
    | sound_try loop G b t x c l :
        sound loop G b -> sound loop ((x, (t, true)) :: G) c -> sound loop G l -> sound loop G (KTry b t x c :: l)
    | sound_throw loop G e t k l : has G e t k -> converts t k t -> sound loop G l -> sound loop G (KThrow e :: l)
    | sound_break G l : sound true G l -> sound true G (KBreak :: l)
    | sound_return_none loop G l : result = CVoid -> sound loop G l -> sound loop G (KReturn None :: l)
    | sound_return loop G e t k l : has G e t k -> converts t k result -> sound loop G l -> sound loop G (KReturn (Some e) :: l).
  End Body.

  Definition param_env (ps : list (thing * param)) : cenv :=
    rev (map (fun p => (fst p, (param_type (snd p), param_constant (snd p)))) ps).
  Definition soundly_typed (f : cfunction) : Prop := sound (cf_result f) false (param_env (cf_params f)) (cf_body f).
End Rules.

Definition csignature_of (f : cfunction) : csignature := CSig (map snd (cf_params f)) (cf_result f).

(** The constants of a schema which the C++ code compares with values *)
Definition literals_fit (t : ty) : Prop :=
  let fits z := match z with Some z => literal_fits z | None => True end in
  match t with
  | TInt b | TFloat b => fits (b_min b) /\ fits (b_max b)
  | TArray _ mn mx => fits mn /\ fits mx
  | _ => True
  end.
