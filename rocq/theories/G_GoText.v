(** The text of the Go functions and structures of the model, for the comparison with the recorded
    sources (G_Golden.v): a test, not a part of the model.

    Both sides are written without blanks, comments, parentheses, commas and semicolons; [else if]
    opens a block; a number is written without the decimals [.0]. *)
From Coq Require Import String List Arith NArith ZArith Bool.
From Verif Require Import Base M_Naming M_Schema M_Dec M_Walk M_GoImports M_GoGen S_Scope M_Scope M_GoScope S_Compare S_GoTyping M_GoTyping.
Import ListNotations.
Open Scope list_scope.
Local Open Scope nat_scope.

Fixpoint go_type_text (t : gtype) : str :=
  match t with
  | GBool => s_ "bool" | GInt => s_ "int" | GInt64 => s_ "int64" | GFloat64 => s_ "float64" | GString => s_ "string"
  | GAny => s_ "interface{}" | GError => s_ "error"
  | GNamed x => x
  | GPointer t => s_ "*" ++ go_type_text t
  | GSlice t => s_ "[]" ++ go_type_text t
  | GMap t => s_ "map[string]" ++ go_type_text t
  end.

Section Text.
  Variable g : graph.

  (** The name of a variable, as in M_GoScope.v *)
  Definition go_name (x : thing) : str :=
    match x with
    | Own role => if String.eqb role "instance value" then s_ "value" else s_ role
    | For role c =>
        match find_class g c with
        | None => []
        | Some c =>
            if String.eqb role "registry" then go_registry c
            else if String.eqb role "target" then s_ "target" ++ ucamel (c_plural c)
            else if String.eqb role "instance" then camel (c_name c) ++ s_ "Instance"
            else camel (c_plural c) ++ s_ role
        end
    | Auto x => x
    | Outer x => x
    end.

  Definition quoted (x : str) : str := s_ """" ++ x ++ s_ """".
  Fixpoint gx (e : gexpr) : str :=
    match e with
    | XVar x => go_name x
    | XGlobal x => x
    | XField e f => gx e ++ s_ "." ++ f
    | XIndex e i => gx e ++ s_ "[" ++ gx i ++ s_ "]"
    | XDeref e => s_ "*" ++ gx e
    | XAddr e => s_ "&" ++ gx e
    | XText x => quoted x
    | XNumber z => dec_Z z
    | XNil => s_ "nil"
    | XCall f args => f ++ flat_map gx args
    | XMethod e m args => gx e ++ s_ "." ++ m ++ flat_map gx args
    | XLen e => s_ "len" ++ gx e
    | XAssert e t => gx e ++ s_ "." ++ go_type_text t
    | XConvert t e => go_type_text t ++ gx e
    | XMake t size => s_ "make" ++ go_type_text t ++ (match size with Some n => gx n | None => [] end)
    | XNew x => s_ "&" ++ x ++ s_ "{}"
    | XStrings l => s_ "[]string{" ++ flat_map gx l ++ s_ "}"
    | XConcat a b => gx a ++ s_ "+" ++ gx b
    | XNot e => s_ "!" ++ gx e
    | XOr a b => gx a ++ s_ "||" ++ gx b
    | XEqual o a b => gx a ++ s_ (equality_text o) ++ gx b
    | XOrder o a b => gx a ++ s_ (order_text o) ++ gx b
    end.

  Fixpoint gs (s : gstmt) : str :=
    let block b := s_ "{" ++ flat_map gs b ++ s_ "}" in
    match s with
    | SVar x t => s_ "var" ++ go_name x ++ go_type_text t
    | SDefine xs e => flat_map (fun x => match x with Some x => go_name x | None => s_ "_" end) xs ++ s_ ":=" ++ gx e
    | SAssign targets e => flat_map gx targets ++ s_ "=" ++ gx e
    | SDo e => gx e
    | SIf e b c => s_ "if" ++ gx e ++ block b ++ (match c with [] => [] | _ => s_ "else" ++ block c end)
    | SRange k v e b =>
        s_ "for" ++ go_name k ++ (match v with Some v => go_name v | None => [] end) ++ s_ ":=range" ++ gx e ++ block b
    | SFor i e b => s_ "for" ++ go_name i ++ s_ ":=0" ++ gx e ++ go_name i ++ s_ "++" ++ block b
    | SDefer b => s_ "deferfunc" ++ block b
    | SBreak => s_ "break"
    | SReturn => s_ "return"
    end.

  Definition go_params (l : list (thing * gtype)) : str := flat_map (fun p => go_name (fst p) ++ go_type_text (snd p)) l.
  Definition go_function_text (f : gfunction) : str :=
    s_ "func" ++ gf_name f ++ go_params (gf_params f) ++ go_params (gf_results f) ++
    s_ "{" ++ flat_map gs (gf_body f) ++ s_ "}".

  (** fromjsonable.py and tojsonable.py without the functions on durations, and types.py *)
  Definition go_from_text : list str := map go_function_text (parser_functions g).
  Definition go_to_text : list str := map go_function_text (serializer_functions g).
  Definition go_types_text : list str :=
    map (fun s => s_ "type" ++ fst s ++ s_ "struct{" ++ flat_map (fun f => fst f ++ go_type_text (snd f)) (snd s) ++ s_ "}")
        (go_structs g).
  (** fromjsonable.py:393-420 *)
  Definition go_regex_text : list str :=
    match compile_regexes (enumerate_patterns g) with
    | Some decls => map (fun d => s_ "var" ++ fst d ++ s_ "=regexp.MustCompile" ++ snd d) decls
    | None => []
    end.
End Text.
