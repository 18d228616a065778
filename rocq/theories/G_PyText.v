(** The classes of the Python model as text, and the names in its functions, for the comparison
    with the recorded sources (G_Golden.v): a test, not a part of the model.

    The text is written without blanks, as [ast.unparse] writes it. *)
From Coq Require Import String List Arith NArith ZArith Bool.
From Verif Require Import Base M_Naming M_Schema M_Walk M_GoImports M_PyImports M_PyTypes S_Scope M_Scope M_PyScope.
Import ListNotations.
Open Scope list_scope.
Local Open Scope nat_scope.

Fixpoint separated (by_ : str) (l : list str) : str :=
  match l with [] => [] | [x] => x | x :: l' => x ++ by_ ++ separated by_ l' end.

Fixpoint annotation_text (a : annotation) : str :=
  match a with
  | AName n => n
  | AText n => s_ "'" ++ n ++ s_ "'"
  | AAttr m x => m ++ s_ "." ++ x
  | AOf m x args => m ++ s_ "." ++ x ++ s_ "[" ++ separated (s_ ",") (map annotation_text args) ++ s_ "]"
  end.
Definition param_text (p : M_PyTypes.param) : str :=
  pa_name p ++ s_ ":" ++ annotation_text (pa_annotation p) ++ (if pa_default p then s_ "=None" else []).
Definition statement_text (s : statement) : str :=
  match s with
  | SetAttr a => s_ "self." ++ a ++ s_ "=" ++ a
  | SetOptional a => s_ "self." ++ a ++ s_ "=" ++ a ++ s_ "if" ++ a ++ s_ "isnotNoneelseNone"
  | SetRegistry a => s_ "if" ++ a ++ s_ "isnotNone:self." ++ a ++ s_ "=" ++ a ++ s_ "else:self." ++ a ++ s_ "=collections.OrderedDict()"
  end.
Definition definition_text (d : definition) : str :=
  de_name d ++
  match de_init d with
  | None => []
  | Some (params, body) =>
      s_ "(" ++ separated (s_ ",") (map param_text params) ++ s_ ")" ++ separated (s_ ";") (map statement_text body)
  end.
Definition py_types_text (py : py_conf) (g : graph) : res (list str) :=
  do m <- types_module py g; Ok (map definition_text (mo_definitions m)).

(** The names which a function assigns and mentions *)
Fixpoint assigned (c : code) : list str :=
  match c with Declare _ x | Store _ x => [x] | Mention _ _ => [] | Block l => flat_map assigned l end.
Fixpoint mentioned (c : code) : list str :=
  match c with Mention _ x => [x] | Declare _ _ | Store _ _ => [] | Block l => flat_map mentioned l end.
Definition without_duration (l : list str) : list str :=
  filter (fun x => negb (mem x [s_ "_duration_from_string"; s_ "_duration_to_string"; s_ "Error"; s_ "Errors"])) l.
