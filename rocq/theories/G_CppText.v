(** The text of the C++ functions and structures of the model, for the comparison with the
    recorded sources (G_Golden.v): a test, not a part of the model.

    Both sides are written without blanks, comments, parentheses, commas, semicolons and the sign
    [=]; [else if] opens a block; [constexpr] is written as [const]; literals
    next to each other are put together; [( * a).b] is written as [a->b]; a number is written
    without the decimals [.0]. *)
From Coq Require Import String List Arith NArith ZArith Bool.
From Verif Require Import Base M_Naming M_Schema M_Dec M_Walk M_GoImports M_GoGen S_Scope M_Scope M_GoScope M_CppScope S_Compare S_CppTyping M_CppTyping S_CppInit M_CppInit M_CppHeader.
Import ListNotations.
Open Scope list_scope.
Local Open Scope nat_scope.

Section Text.
  Variable cpp : cpp_conf.
  Variable g : graph.

  Fixpoint cpp_type_text (t : ctype) : str :=
    let template (x : string) u := s_ x ++ s_ "<" ++ cpp_type_text u ++ s_ ">" in
    match t with
    | CVoid => s_ "void" | CBool => s_ "bool" | CInt => s_ "int" | CUnsigned => s_ "size_t" | CInt64 => s_ "int64_t"
    | CDouble => s_ "double" | CChar => s_ "char" | CNull => [] | CText => s_ "constchar*" | CString => s_ "std::string"
    | CNamed x => if str_eqb x (s_ "tm") then s_ "structtm" else x
    | CPointer constant t => (if constant then s_ "const" else []) ++ cpp_type_text t ++ s_ "*"
    | COptional t => cc_optional_as cpp ++ s_ "<" ++ cpp_type_text t ++ s_ ">"
    | CVector t => template "std::vector"%string t
    | CMap t => s_ "std::map<std::string" ++ cpp_type_text t ++ s_ ">"
    | CUnique t => template "std::unique_ptr"%string t
    | CPair _ | CBit | CParsing => []
    end.

  (** The name of a variable, as in M_CppScope.v, in the function of the structure [structure] *)
  Variable structure : str.
  Definition cpp_name (x : thing) : str :=
    match x with
    | Own role => if String.eqb role "structure" then structure
                  else if String.eqb role "result" then structure ++ s_ "_as_value"
                  else s_ role
    | For role c =>
        match find_class g c with
        | None => []
        | Some c =>
            if String.eqb role "registry" then snd (cpp_registry c)
            else if String.eqb role "ref" then snd (cpp_ref c)
            else if String.eqb role "value" then snd (cpp_registry_value c) else []
        end
    | Auto x => x
    | Outer x => x
    end.

  Definition cquoted (x : str) : str := s_ """" ++ x ++ s_ """".
  Fixpoint cx (e : cexpr) : str :=
    let of_object e m := match e with EDeref e => cx e ++ s_ "->" ++ m | _ => cx e ++ s_ "." ++ m end in
    match e with
    | EVar x => cpp_name x
    | EConstant x => x
    | EMember e f => of_object e f
    | EIndex e i => cx e ++ s_ "[" ++ cx i ++ s_ "]"
    | EDeref e => s_ "*" ++ cx e
    | EAddress e => s_ "&" ++ cx e
    | EText x => cquoted x
    | EChar c => if N.eqb c 0 then s_ "'\0'" else s_ "'" ++ [c] ++ s_ "'"
    | ENumber z => dec_Z z
    | ENull => s_ "nullptr"
    | ECall f args => f ++ flat_map cx args
    | EMethod e m args => of_object e m ++ flat_map cx args
    | EConstruct t args =>
        (match t with CNamed x => if str_eqb x (s_ "tm") then s_ "tm{" ++ flat_map cx args ++ s_ "}" else x ++ flat_map cx args
                    | _ => cpp_type_text t ++ flat_map cx args end)
    | EToString e => s_ "std::to_string" ++ cx e
    | EMove e => s_ "std::move" ++ cx e
    | EMakeUnique x => s_ "std::make_unique<" ++ x ++ s_ ">"
    | EParse f e => s_ "date::parse" ++ cx f ++ cx e
    | EFormat f e => s_ "date::format" ++ cx f ++ cx e
    | EExtract a b => cx a ++ s_ ">>" ++ cx b
    | EAdd a b => cx a ++ s_ "+" ++ cx b
    | ENot e => s_ "!" ++ cx e
    | EOr a b => cx a ++ s_ "||" ++ cx b
    | EEqual o a b => cx a ++ s_ (equality_text o) ++ cx b
    | EOrder o a b => cx a ++ s_ (order_text o) ++ cx b
    end.

  Definition constantly (c : bool) : str := if c then s_ "const" else [].
  (** [T x(a)] initializes like [T x = T(a)]; only [tm] is written in the second way. *)
  Definition initializer (t : ctype) (init : option cexpr) : str :=
    match init with
    | Some (EConstruct (CNamed x) args) =>
        if str_eqb x (s_ "tm") then cx (EConstruct (CNamed x) args) else flat_map cx args
    | Some e => cx e
    | None => []
    end.
  Fixpoint cs (s : cstmt) : str :=
    let block b := s_ "{" ++ flat_map cs b ++ s_ "}" in
    match s with
    | KLet c t x init => constantly c ++ cpp_type_text t ++ cpp_name x ++ initializer t init
    | KAuto c x e => constantly c ++ s_ "auto" ++ cpp_name x ++ cx e
    | KReference c t x e => constantly c ++ cpp_type_text t ++ s_ "&" ++ cpp_name x ++ cx e
    | KAutoReference x e => s_ "constauto&" ++ cpp_name x ++ cx e
    | KAssign a e => cx a ++ cx e
    | KAppend a e => cx a ++ s_ "+=" ++ cx e
    | KIncrement e => s_ "++" ++ cx e
    | KDo e => cx e
    | KIf e b c => s_ "if" ++ cx e ++ block b ++ (match c with [] => [] | _ => s_ "else" ++ block c end)
    | KEach t x e b =>
        s_ "forconst" ++ (match t with Some t => cpp_type_text t | None => s_ "auto" end) ++ s_ "&" ++ cpp_name x ++ s_ ":" ++ cx e ++ block b
    | KFor t x init until b =>
        s_ "for" ++ cpp_type_text t ++ cpp_name x ++ cx init ++ cx until ++ s_ "++" ++ cpp_name x ++ block b
    | KTry b t x c => s_ "try" ++ block b ++ s_ "catchconst" ++ cpp_type_text t ++ s_ "&" ++ cpp_name x ++ block c
    | KThrow e => s_ "throw" ++ cx e
    | KBreak => s_ "break"
    | KReturn e => s_ "return" ++ (match e with Some e => cx e | None => [] end)
    end.

  Definition cpp_param_text (p : thing * param) : str :=
    match snd p with
    | ByValue t => cpp_type_text t ++ cpp_name (fst p)
    | ByReference t => s_ "const" ++ cpp_type_text t ++ s_ "&" ++ cpp_name (fst p)
    end.
  Definition cpp_function_with (f : cfunction) : str :=
    cpp_type_text (cf_result f) ++ cf_name f ++ flat_map cpp_param_text (cf_params f) ++ s_ "{" ++ flat_map cs (cf_body f) ++ s_ "}".
End Text.

(** A function which serializes is called after the structure: "serialize_" and the name. *)
Definition cpp_function_text (cpp : cpp_conf) (g : graph) (f : cfunction) : str :=
  cpp_function_with cpp g (skipn 10 (cf_name f)) f.
(** jsoncpp_impl.py without the functions which do not depend on the schema, and the members in
    types_header.py *)
Definition cpp_impl_text (cpp : cpp_conf) (g : graph) : list str := map (cpp_function_text cpp g) (cpp_functions cpp g).
(** jsoncpp_header.py: the declarations without the names of the parameters *)
Definition declared_param_text (cpp : cpp_conf) (p : param) : str :=
  match p with
  | ByValue t => cpp_type_text cpp t
  | ByReference t => s_ "const" ++ cpp_type_text cpp t ++ s_ "&"
  end.
Definition cpp_header_text (cpp : cpp_conf) (g : graph) : list str :=
  map (fun d => cpp_type_text cpp (cs_result (snd d)) ++ fst d ++ flat_map (declared_param_text cpp) (cs_params (snd d))) (header_declarations g).
Definition initializer_text (i : S_CppInit.initializer) : str :=
  match i with
  | InitFalse => s_ "false" | InitZero | InitZeroFloat => s_ "0" | InitZeroTm => s_ "tm{0}" | InitNull => s_ "nullptr"
  end.
Definition cpp_types_text (cpp : cpp_conf) (g : graph) : list str :=
  map (fun s => fst s ++ s_ "{" ++
                flat_map (fun m => cpp_type_text cpp (d_type m) ++ d_name m ++
                                   match d_initializer m with Some i => initializer_text i | None => [] end) (snd s) ++ s_ "}")
      (declared_structs cpp g).
