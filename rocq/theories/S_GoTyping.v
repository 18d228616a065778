(** When the functions of a Go package are well-typed (C60) and their formats fit what is
    printed (C61): the part of The Go Programming Language Specification and of the package
    fmt which the generated code needs.

    A variable is given by the thing which its name means (C58). *)
From Coq Require Import String List Arith NArith ZArith Bool.
From Verif Require Import Base M_Naming M_Schema M_Strftime S_Scope S_Compare.
Import ListNotations.
Open Scope list_scope.

(** * Types *)

Inductive gtype :=
| GBool | GInt | GInt64 | GFloat64 | GString
| GAny                          (** [interface{}] *)
| GError                        (** the interface [error] *)
| GNamed (x : str)              (** a type declared in the package or in another one *)
| GPointer (t : gtype)
| GSlice (t : gtype)
| GMap (t : gtype).             (** [map[string]t] *)

Record signature := Sig {
  sg_params : list gtype;
  sg_rest : option gtype;       (** the type of any further arguments *)
  sg_results : list gtype }.

(** What the package declares: structures with their fields, functions and variables. *)
Record package := Package {
  pk_vet : bool;                (** whether the formats are checked as well, as [go vet] does (C61) *)
  pk_structs : list (str * list (str * gtype));
  pk_functions : list (str * signature);
  pk_variables : list (str * gtype) }.

(** The packages math, strings, strconv, fmt and time, and the function [panic] *)
Definition t_time : gtype := GNamed (s_ "time.Time").
Definition t_location : gtype := GNamed (s_ "time.Location").
Definition t_duration : gtype := GNamed (s_ "time.Duration").
Definition t_regexp : gtype := GNamed (s_ "regexp.Regexp").
Definition library_functions : list (str * signature) :=
  [(s_ "math.Trunc", Sig [GFloat64] None [GFloat64]);
   (s_ "strings.Join", Sig [GSlice GString; GString] None [GString]);
   (s_ "strconv.Itoa", Sig [GInt] None [GString]);
   (s_ "fmt.Sprintf", Sig [GString] (Some GAny) [GString]);
   (s_ "fmt.Errorf", Sig [GString] (Some GAny) [GError]);
   (s_ "time.Parse", Sig [GString; GString] None [t_time; GError]);
   (s_ "time.LoadLocation", Sig [GString] None [GPointer t_location; GError]);
   (s_ "panic", Sig [GAny] None [])].
(** The methods, those of parse.py included *)
Definition methods (t : gtype) (m : str) : option signature :=
  match t with
  | GPointer (GNamed x) =>
      if str_eqb x (s_ "Errors") then
        lookup m [(s_ "Add", Sig [GString; GString] None []); (s_ "Full", Sig [] None [GBool]); (s_ "Empty", Sig [] None [GBool])]
      else if str_eqb x (s_ "time.Location") then lookup m [(s_ "String", Sig [] None [GString])]
      else if str_eqb x (s_ "regexp.Regexp") then lookup m [(s_ "MatchString", Sig [GString] None [GBool])]
      else None
  | GNamed x => if str_eqb x (s_ "time.Time") then lookup m [(s_ "Format", Sig [GString] None [GString])] else None
  | GError => lookup m [(s_ "Error", Sig [] None [GString])]
  | _ => None
  end.

(** ** Formats (the package fmt) *)

(** The functions with a format as their first argument *)
Definition format_functions : list str := [s_ "fmt.Sprintf"; s_ "fmt.Errorf"].
(** The verbs in a format: each consists of a percent sign, flags with the width and the
    precision, and a letter.  (Neither indices of arguments nor the width [*] are used.) *)
Definition flag (c : N) : Prop := In c (s_ "+-# .0123456789").
Definition verb_letter (c : N) : Prop := In c (s_ "vTtbcdoOqxXUeEfFgGsp").
Inductive formats : str -> list N -> Prop :=
| formats_end : formats [] []
| formats_char c x verbs : c <> 37%N -> formats x verbs -> formats (c :: x) verbs
| formats_percent x verbs : formats x verbs -> formats (s_ "%%" ++ x) verbs
| formats_verb flags c x verbs : Forall flag flags -> verb_letter c -> formats x verbs -> formats (s_ "%" ++ flags ++ c :: x) (c :: verbs).
(** The verbs for a type *)
Definition shows (verb : N) (t : gtype) : Prop :=
  In verb (s_ "vT") \/
  match t with
  | GAny => True
  | GBool => In verb (s_ "t")
  | GInt | GInt64 => In verb (s_ "bcdoOqxXU")
  | GFloat64 => In verb (s_ "beEfFgGxX")
  | GString | GError => In verb (s_ "sqxX")
  | _ => False
  end.

(** * Expressions and statements *)

Inductive gexpr :=
| XVar (x : thing)
| XGlobal (x : str)                       (** a variable of the package *)
| XField (e : gexpr) (f : str)
| XIndex (e i : gexpr)
| XDeref (e : gexpr)
| XAddr (e : gexpr)
| XText (x : str)                         (** a literal *)
| XNumber (z : Z)                         (** an integral constant *)
| XNil
| XCall (f : str) (args : list gexpr)
| XMethod (e : gexpr) (m : str) (args : list gexpr)
| XLen (e : gexpr)
| XAssert (e : gexpr) (t : gtype)         (** [e.(t)] *)
| XConvert (t : gtype) (e : gexpr)        (** [t(e)] *)
| XMake (t : gtype) (size : option gexpr)
| XNew (s : str)                          (** [&s{}] *)
| XStrings (l : list gexpr)               (** [[]string{...}] *)
| XConcat (a b : gexpr)
| XNot (e : gexpr)
| XOr (a b : gexpr)
| XEqual (o : equality) (a b : gexpr)     (** [==] and [!=] *)
| XOrder (o : order) (a b : gexpr).       (** [<], [<=], [>] and [>=] *)

Inductive gstmt :=
| SVar (x : thing) (t : gtype)                      (** [var x t] *)
| SDefine (xs : list (option thing)) (e : gexpr)    (** [x, _ := e] *)
| SAssign (targets : list gexpr) (e : gexpr)        (** [a, b = e] *)
| SDo (e : gexpr)
| SIf (e : gexpr) (b c : list gstmt)
| SRange (k : thing) (v : option thing) (e : gexpr) (b : list gstmt)
| SFor (i : thing) (e : gexpr) (b : list gstmt)     (** [for i := 0; e; i++] *)
| SDefer (b : list gstmt)
| SBreak
| SReturn.

(** A function with named results *)
Record gfunction := GFunction {
  gf_name : str; gf_params : list (thing * gtype); gf_results : list (thing * gtype); gf_body : list gstmt }.

(** * The rules *)

Definition env : Type := list (thing * gtype).
(** The last declaration counts. *)
Inductive declared : env -> thing -> gtype -> Prop :=
| declared_here G x t : declared ((x, t) :: G) x t
| declared_before G x t y u : x <> y -> declared G x t -> declared ((y, u) :: G) x t.

(** Types with the value [nil]; types whose values can be compared; ordered types *)
Definition nillable (t : gtype) : Prop :=
  match t with GAny | GError | GPointer _ | GSlice _ | GMap _ => True | _ => False end.
Definition comparable (t : gtype) : Prop := In t [GBool; GInt; GInt64; GFloat64; GString].
Definition ordered (t : gtype) : Prop := In t [GInt; GInt64; GFloat64; GString].
(** Constants which a type can represent; [int] has 64 bits.  A real constant is rounded, and
    overflows from the middle of the largest float64 and the next power of two on. *)
Definition representable (z : Z) (t : gtype) : Prop :=
  match t with
  | GInt | GInt64 => (- 2 ^ 63 <= z < 2 ^ 63)%Z
  | GFloat64 => (Z.abs z < 2 ^ 1024 - 2 ^ 970)%Z
  | _ => False
  end.

Section Rules.
  Variable pk : package.
  Definition function_type (f : str) : option signature :=
    match lookup f library_functions with Some s => Some s | None => lookup f (pk_functions pk) end.
  Definition field_type (s f : str) : option gtype :=
    match lookup s (pk_structs pk) with Some fields => lookup f fields | None => None end.

  Inductive typed (G : env) : gexpr -> gtype -> Prop :=
  | typed_var x t : declared G x t -> typed G (XVar x) t
  | typed_global x t : lookup x (pk_variables pk) = Some t -> typed G (XGlobal x) t
  | typed_field e s f t : typed G e (GNamed s) -> field_type s f = Some t -> typed G (XField e f) t
  | typed_field_of_pointer e s f t : typed G e (GPointer (GNamed s)) -> field_type s f = Some t -> typed G (XField e f) t
  | typed_element e i t : typed G e (GSlice t) -> assignable G i GInt -> typed G (XIndex e i) t
  | typed_entry e i t : typed G e (GMap t) -> assignable G i GString -> typed G (XIndex e i) t
  | typed_deref e t : typed G e (GPointer t) -> typed G (XDeref e) t
  | typed_addr e t : typed G e t -> addressable G e -> typed G (XAddr e) (GPointer t)
  | typed_call f s args t :
      function_type f = Some s -> sg_results s = [t] -> applied G args (sg_params s) (sg_rest s) -> printed G f args ->
      typed G (XCall f args) t
  | typed_method e u m s args t :
      typed G e u -> methods u m = Some s -> sg_results s = [t] -> applied G args (sg_params s) (sg_rest s) -> typed G (XMethod e m args) t
  | typed_len_slice e t : typed G e (GSlice t) -> typed G (XLen e) GInt
  | typed_len_map e t : typed G e (GMap t) -> typed G (XLen e) GInt
  | typed_assert e t : typed G e GAny -> typed G (XAssert e t) t
  | typed_convert e : typed G e GFloat64 -> typed G (XConvert GInt64 e) GInt64
  | typed_make_map t : typed G (XMake (GMap t) None) (GMap t)
  | typed_make_slice t n : assignable G n GInt -> typed G (XMake (GSlice t) (Some n)) (GSlice t)
  | typed_new s fields : lookup s (pk_structs pk) = Some fields -> typed G (XNew s) (GPointer (GNamed s))
  | typed_strings l : Forall (fun e => assignable G e GString) l -> typed G (XStrings l) (GSlice GString)
  | typed_concat a b : typed G a GString -> assignable G b GString -> typed G (XConcat a b) GString
  | typed_not e : typed G e GBool -> typed G (XNot e) GBool
  | typed_or a b : typed G a GBool -> typed G b GBool -> typed G (XOr a b) GBool
  | typed_equal o a b t : typed G a t -> comparable t -> assignable G b t -> typed G (XEqual o a b) GBool
  | typed_equal_nil o a t : typed G a t -> nillable t -> typed G (XEqual o a XNil) GBool
  | typed_order o a b t : typed G a t -> ordered t -> assignable G b t -> typed G (XOrder o a b) GBool
  with assignable (G : env) : gexpr -> gtype -> Prop :=
  | assignable_same e t : typed G e t -> assignable G e t
  | assignable_any e t : typed G e t -> assignable G e GAny
  | assignable_text x : assignable G (XText x) GString
  | assignable_text_any x : assignable G (XText x) GAny
  | assignable_number z t : representable z t -> assignable G (XNumber z) t
  | assignable_nil t : nillable t -> assignable G XNil t
  with addressable (G : env) : gexpr -> Prop :=
  | addressable_var x : addressable G (XVar x)
  | addressable_deref e : addressable G (XDeref e)
  | addressable_element e i t : typed G e (GSlice t) -> addressable G (XIndex e i)
  | addressable_field e f : addressable G e -> addressable G (XField e f)
  | addressable_field_of_pointer e f t : typed G e (GPointer t) -> addressable G (XField e f)
  with applied (G : env) : list gexpr -> list gtype -> option gtype -> Prop :=
  | applied_none rest : applied G [] [] rest
  | applied_arg e args t params rest : assignable G e t -> applied G args params rest -> applied G (e :: args) (t :: params) rest
  | applied_rest e args t : assignable G e t -> applied G args [] (Some t) -> applied G (e :: args) [] (Some t)
  (** The arguments which are printed fit the format. *)
  with printed (G : env) : str -> list gexpr -> Prop :=
  | printed_other f args : ~ In f format_functions -> printed G f args
  | printed_unchecked f args : pk_vet pk = false -> printed G f args
  | printed_format f x verbs args : formats x verbs -> shown G verbs args -> printed G f (XText x :: args)
  with shown (G : env) : list N -> list gexpr -> Prop :=
  | shown_none : shown G [] []
  | shown_arg v e t verbs args : typed G e t -> shows v t -> shown G verbs args -> shown G (v :: verbs) (e :: args).

  (** What can be assigned to *)
  Definition settable (G : env) (e : gexpr) : Prop :=
    addressable G e \/ exists m i t, e = XIndex m i /\ typed G m (GMap t).

  (** The values of an expression on the right-hand side of an assignment *)
  Inductive yields (G : env) : gexpr -> list gtype -> Prop :=
  | yields_one e t : typed G e t -> yields G e [t]
  | yields_call f s args : function_type f = Some s -> applied G args (sg_params s) (sg_rest s) -> printed G f args -> yields G (XCall f args) (sg_results s)
  | yields_method e u m s args :
      typed G e u -> methods u m = Some s -> applied G args (sg_params s) (sg_rest s) -> yields G (XMethod e m args) (sg_results s)
  | yields_assert e t : typed G e GAny -> yields G (XAssert e t) [t; GBool]
  | yields_entry e i t : typed G e (GMap t) -> assignable G i GString -> yields G (XIndex e i) [t; GBool].
  Definition is_call (e : gexpr) : Prop := match e with XCall _ _ | XMethod _ _ _ => True | _ => False end.

  Fixpoint bind_all (xs : list (option thing)) (ts : list gtype) (G : env) : env :=
    match xs, ts with
    | Some x :: xs, t :: ts => bind_all xs ts ((x, t) :: G)
    | None :: xs, _ :: ts => bind_all xs ts G
    | _, _ => G
    end.

  (** Statements, in a loop or not *)
  Inductive checks : bool -> env -> list gstmt -> Prop :=
  | checks_nil loop G : checks loop G []
  | checks_var loop G x t l : checks loop ((x, t) :: G) l -> checks loop G (SVar x t :: l)
  | checks_define loop G xs e ts l :
      yields G e ts -> List.length xs = List.length ts -> checks loop (bind_all xs ts G) l -> checks loop G (SDefine xs e :: l)
  | checks_assign loop G target e t l :
      typed G target t -> settable G target -> assignable G e t -> checks loop G l -> checks loop G (SAssign [target] e :: l)
  | checks_assign_all loop G targets e ts l :
      yields G e ts -> Forall2 (fun a t => typed G a t /\ settable G a) targets ts -> checks loop G l -> checks loop G (SAssign targets e :: l)
  | checks_do loop G e ts l : is_call e -> yields G e ts -> checks loop G l -> checks loop G (SDo e :: l)
  | checks_if loop G e b c l : typed G e GBool -> checks loop G b -> checks loop G c -> checks loop G l -> checks loop G (SIf e b c :: l)
  | checks_range_slice loop G k e t b l :
      typed G e (GSlice t) -> checks true ((k, GInt) :: G) b -> checks loop G l -> checks loop G (SRange k None e b :: l)
  | checks_range_map loop G k e t b l :
      typed G e (GMap t) -> checks true ((k, GString) :: G) b -> checks loop G l -> checks loop G (SRange k None e b :: l)
  | checks_range_entries loop G k v e t b l :
      typed G e (GMap t) -> checks true ((v, t) :: (k, GString) :: G) b -> checks loop G l -> checks loop G (SRange k (Some v) e b :: l)
  | checks_for loop G i e b l :
      typed ((i, GInt) :: G) e GBool -> checks true ((i, GInt) :: G) b -> checks loop G l -> checks loop G (SFor i e b :: l)
  | checks_defer loop G b l : checks false G b -> checks loop G l -> checks loop G (SDefer b :: l)
  | checks_break G l : checks true G l -> checks true G (SBreak :: l)
  | checks_return loop G l : checks loop G l -> checks loop G (SReturn :: l).

  Definition well_typed (f : gfunction) : Prop := checks false (rev (gf_params f ++ gf_results f)) (gf_body f).
End Rules.

Definition signature_of (f : gfunction) : signature := Sig (map snd (gf_params f)) None (map snd (gf_results f)).

(** The constants of a schema which the Go code compares with values *)
Definition bound_fits (t : gtype) (z : option Z) : Prop := match z with Some z => representable z t | None => True end.
Definition constants_fit (t : ty) : Prop :=
  match t with
  | TInt b => bound_fits GInt64 (b_min b) /\ bound_fits GInt64 (b_max b)
  | TFloat b => bound_fits GFloat64 (b_min b) /\ bound_fits GFloat64 (b_max b)
  | TArray _ mn mx => bound_fits GInt mn /\ bound_fits GInt mx
  | _ => True
  end.

(** The texts of a schema which the Go code puts into formats: patterns and layouts (C27) *)
Definition plain (x : str) : Prop := ~ In 37%N x.
Definition texts_plain (t : ty) : Prop :=
  match t with
  | TStr (Some p) | TPath (Some p) => plain p
  | TDate f | TTime f | TDatetime f => forall l, convert f = Ok l -> plain l
  | _ => True
  end.
