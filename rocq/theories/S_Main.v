(** Specification for the command-line tool (C46, C47). *)
From Coq Require Import String List Arith NArith ZArith Bool.
From Verif Require Import Base M_Naming M_Schema M_LangValid M_Main.
Import ListNotations.
Open Scope list_scope.
Local Open Scope nat_scope.

(** [p] is [q], or a directory above it. *)
Definition above (p q : path) : Prop := exists inner, q = inner ++ p.

(** The root is a directory and whatever exists is in a directory. *)
Definition tree (fs : files) : Prop :=
  fs [] = Some NDir /\ forall name p, fs (name :: p) <> None -> fs p = Some NDir.

(** Directories above [outdir], and [outdir] itself, may have been made; nothing else
    differs. *)
Definition only_directories (outdir : path) (before after : files) : Prop :=
  forall p, after p = before p \/ (above p outdir /\ before p = None /\ after p = Some NDir).

(** The files [codes] are in the directory [outdir]; nothing else was touched, but the
    directories which are missing are made. *)
Definition written (outdir : path) (codes : list (str * str)) (before after : files) : Prop :=
  (forall name text, In (name, text) codes -> after (name :: outdir) = Some (NFile text)) /\
  (forall p, above p outdir -> after p = Some NDir) /\
  (forall p, ~ above p outdir -> (forall name text, In (name, text) codes -> p <> name :: outdir) -> after p = before p).

(** The directory can be made: what exists of it and above it are directories. *)
Definition can_make (outdir : path) (fs : files) : Prop :=
  forall p, above p outdir -> fs p = None \/ fs p = Some NDir.

(** The files announced for a language. *)
Definition announced (l : lang) : list string :=
  match l with
  | Cpp => ["types.h"; "parse.h"; "parse.cpp"; "jsoncpp.h"; "jsoncpp.cpp"]
  | Go => ["types.go"; "parse.go"; "from_jsonable.go"; "from_jsonable_test.go"; "to_jsonable.go"; "to_jsonable_test.go"]
  | Python => ["__init__.py"; "parse.py"; "fromjsonable.py"; "tojsonable.py"]
  end%string.

(** The schema is valid for the language and states its settings. *)
Definition fits (l : lang) (s : schema) : Prop :=
  match l with
  | Cpp => cpp_validate (sc_graph s) = Ok [] /\ exists c, sc_cpp s = Some c
  | Go => go_validate (sc_graph s) = Ok [] /\ exists c, sc_go s = Some c
  | Python => py_validate (sc_graph s) = Ok [] /\ exists c, sc_py s = Some c
  end.

(** * Line ends and columns *)

(** The text with all its line ends as line feeds. *)
Inductive unified : str -> str -> Prop :=
| u_end : unified [] []
| u_crlf s t : unified s t -> unified (13%N :: 10%N :: s) (10%N :: t)
| u_cr s t : (forall r, s <> 10%N :: r) -> unified s t -> unified (13%N :: s) (10%N :: t)
| u_other c s t : c <> 13%N -> unified s t -> unified (c :: s) (c :: t).

(** The position [pos] of [doc] is in the line [line], after [col] of its characters
    (the position at a line feed belongs to the line which it ends). *)
Definition position_in (doc : str) (pos : nat) (line : str) (col : nat) : Prop :=
  exists before after,
    doc = before ++ line ++ after /\ pos = length before + col /\ col <= length line /\ ~ In 10%N line /\
    (before = [] \/ exists b, before = b ++ [10%N]) /\
    (after = [] \/ exists a, after = 10%N :: a).

(** The column of the screen which is reached when [s] is printed from the column
    [from], with a tabulator at every multiple of [tab]. *)
Fixpoint screen (tab from : nat) (s : str) : nat :=
  match s with
  | [] => from
  | c :: s' => screen tab (if N.eqb c 9 then (from / tab + 1) * tab else from + 1) s'
  end.

(** The characters other than the line feed at which [str.splitlines] splits: VT, FF,
    CR, FS, GS, RS, NEL, LS and PS. *)
Definition other_separators : list chr := [11; 12; 13; 28; 29; 30; 133; 8232; 8233]%N.
