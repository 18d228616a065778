(** Small lexers of the target languages: what a literal denotes, what a comment
    hides (C39-C43, C52).  Escapes which the generators never write (octal,
    hexadecimal, Unicode) count as ill-formed. *)
From Verif Require Import Base.
From Coq Require Import String Ascii List Arith NArith Bool.
Import ListNotations.
Open Scope list_scope.

Definition cons_fst (c : chr) (r : option (str * str)) : option (str * str) :=
  match r with Some (v, rest) => Some (c :: v, rest) | None => None end.

(** The whole text was read. *)
Definition all_read (r : option (str * str)) : option str :=
  match r with Some (v, []) => Some v | _ => None end.

(** ** Go *)

(** Characters not allowed in Go source: NUL and, except at the start, the byte
    order mark. *)
Definition go_char (c : chr) : bool := negb (N.eqb c 0) && negb (N.eqb c 65279).

(** The simple escapes of C and Go. *)
Definition simple_escape (c : chr) : option chr :=
  lookup [c] [(s_ "a", 7); (s_ "b", 8); (s_ "f", 12); (s_ "n", 10); (s_ "r", 13); (s_ "t", 9);
              (s_ "v", 11); (s_ "\", 92); (s_ """", 34)]%N.

(** The rest of an interpreted string literal: its value and what follows. *)
Fixpoint go_chars (s : str) : option (str * str) :=
  match s with
  | [] => None
  | c :: s' =>
      if N.eqb c 34 then Some ([], s')
      else if N.eqb c 92 then
        match s' with
        | [] => None
        | e :: s'' => match simple_escape e with Some x => cons_fst x (go_chars s'') | None => None end
        end
      else if N.eqb c 10 || negb (go_char c) then None
      else cons_fst c (go_chars s')
  end.

(** The rest of a raw string literal; carriage returns are discarded. *)
Fixpoint go_raw (s : str) : option (str * str) :=
  match s with
  | [] => None
  | c :: s' =>
      if N.eqb c 96 then Some ([], s')
      else if negb (go_char c) then None
      else if N.eqb c 13 then go_raw s'
      else cons_fst c (go_raw s')
  end.

Definition go_lit (s : str) : option (str * str) :=
  match s with
  | c :: s' => if N.eqb c 34 then go_chars s' else if N.eqb c 96 then go_raw s' else None
  | [] => None
  end.

Definition go_literal (s : str) : option str := all_read (go_lit s).

Fixpoint skip (p : chr -> bool) (s : str) : str :=
  match s with c :: s' => if p c then skip p s' else s | [] => [] end.

(** Literals joined with [+].  A line feed after a literal ends the statement, after
    the operator it does not. *)
Fixpoint go_concat (fuel : nat) (s : str) : option str :=
  match fuel with
  | O => None
  | S fuel' =>
      match go_lit s with
      | None => None
      | Some (v, rest) =>
          match skip (fun c => N.eqb c 32 || N.eqb c 9) rest with
          | [] => Some v
          | c :: rest' =>
              if N.eqb c 43 then
                match go_concat fuel' (skip (fun c => N.eqb c 32 || N.eqb c 9 || N.eqb c 10) rest') with
                | Some w => Some (v ++ w)
                | None => None
                end
              else None
          end
      end
  end.
Definition go_string_expr (s : str) : option str := go_concat (length s) s.

(** ** C++ *)

(** The rest of an ordinary string literal, C++17.  [gnu]: the escape sequence for
    ESC is accepted as an extension.  As the literal is used as a C string, it must
    not contain NUL. *)
Fixpoint cpp_chars (gnu : bool) (s : str) : option (str * str) :=
  match s with
  | [] => None
  | c :: s' =>
      if N.eqb c 34 then Some ([], s')
      else if N.eqb c 92 then
        match s' with
        | [] => None
        | e :: s'' =>
            match (if gnu && N.eqb e 101 then Some 27%N else simple_escape e) with
            | Some x => cons_fst x (cpp_chars gnu s'')
            | None => None
            end
        end
      else if N.eqb c 10 || N.eqb c 0 then None
      else cons_fst c (cpp_chars gnu s')
  end.
Definition cpp_literal (gnu : bool) (s : str) : option str :=
  match s with
  | c :: s' => if N.eqb c 34 then all_read (cpp_chars gnu s') else None
  | [] => None
  end.

(** A raw string literal with a delimiter: up to the first occurrence of the closing
    parenthesis, the delimiter and the quote. *)
Fixpoint until (stop : str) (s : str) : option (str * str) :=
  if starts_with stop s then Some ([], skipn (length stop) s)
  else match s with
       | [] => None
       | c :: s' => if N.eqb c 0 then None else cons_fst c (until stop s')
       end.
Definition cpp_raw_literal (delimiter : str) (s : str) : option str :=
  let open := s_ "R""" ++ delimiter ++ s_ "(" in
  if starts_with open s
  then all_read (until (s_ ")" ++ delimiter ++ s_ """") (skipn (length open) s))
  else None.

(** ** Python *)

(** Universal newlines: the tokenizer reads CR and CR LF as LF. *)
Fixpoint py_newlines (s : str) : str :=
  match s with
  | [] => []
  | c :: s' =>
      if N.eqb c 13 then
        match s' with
        | d :: s'' => if N.eqb d 10 then 10%N :: py_newlines s'' else 10%N :: py_newlines s'
        | [] => [10%N]
        end
      else c :: py_newlines s'
  end.

(** The rest of a string literal closed by [q], raw or not; [multi]: line feeds are
    allowed. *)
Fixpoint py_chars (raw multi : bool) (q : str) (s : str) : option (str * str) :=
  if starts_with q s then Some ([], skipn (length q) s)
  else
    match s with
    | [] => None
    | c :: s' =>
        if N.eqb c 0 then None
        else if N.eqb c 92 then
          match s' with
          | [] => None
          | e :: s'' =>
              if N.eqb e 0 || (N.eqb e 10 && negb multi) then None
              else if raw then cons_fst c (cons_fst e (py_chars raw multi q s''))
              else match simple_escape e with
                   | Some x => cons_fst x (py_chars raw multi q s'')
                   | None => None
                   end
          end
        else if N.eqb c 10 && negb multi then None
        else cons_fst c (py_chars raw multi q s')
    end.

(** A literal in triple quotes, with or without the prefix [r]. *)
Definition py_docstring (source : str) : option str :=
  let s := py_newlines source in
  let quotes := s_ """""""" in
  if starts_with quotes s then all_read (py_chars false true quotes (skipn 3 s))
  else if starts_with (s_ "r" ++ quotes) s then all_read (py_chars true true quotes (skipn 4 s))
  else None.

(** A raw literal in single quotes. *)
Definition py_raw_literal (source : str) : option str :=
  let s := py_newlines source in
  if starts_with (s_ "r'") s then all_read (py_chars true false (s_ "'") (skipn 2 s)) else None.

(** ** Comments *)

(** What follows the line comment in which [s] lies.  [eol] tells the ends of lines;
    [splice]: a backslash before a line feed continues the line (C++). *)
Fixpoint after_comment (eol : chr -> bool) (splice : bool) (s : str) : str :=
  match s with
  | [] => []
  | c :: s' =>
      if eol c then s'
      else if splice && N.eqb c 92 then
        match s' with
        | d :: s'' => if N.eqb d 10 then after_comment eol splice s'' else after_comment eol splice s'
        | [] => []
        end
      else after_comment eol splice s'
  end.

(** The source after all comments at its start. *)
Fixpoint uncomment (fuel : nat) (marker : str) (eol : chr -> bool) (splice : bool) (s : str) : str :=
  match fuel with
  | O => s
  | S fuel' =>
      if starts_with marker s
      then uncomment fuel' marker eol splice (after_comment eol splice (skipn (length marker) s))
      else s
  end.

Definition py_eol (c : chr) : bool := N.eqb c 10 || N.eqb c 13.
Definition c_eol (c : chr) : bool := N.eqb c 10.

(** ** Indention *)

Definition indent_char (c : chr) : Prop := c = 32%N \/ c = 9%N.

(** The text without the blanks at the starts of its lines ([str.splitlines]). *)
Definition unindented (s : str) : str :=
  concat (map (skip (fun c => N.eqb c 32 || N.eqb c 9)) (splitlines_keep s)).

(** A line, with its end, consisting only of blanks. *)
Definition blank_line (l : str) : Prop :=
  exists b, Forall indent_char b /\ (l = b \/ l = b ++ [10%N]).

(** The lines ended by line feeds. *)
Inductive lf_lines : str -> list str -> Prop :=
| lf_nil : lf_lines [] []
| lf_last l : l <> [] -> ~ In 10%N l -> lf_lines l [l]
| lf_cons l s ls : ~ In 10%N l -> lf_lines s ls -> lf_lines (l ++ 10%N :: s) ((l ++ [10%N]) :: ls).

(** The margin: the longest prefix of blanks of all lines which are not blank; empty
    if all lines are. *)
Definition is_margin (m : str) (ls : list str) : Prop :=
  Forall indent_char m /\
  (forall l, In l ls -> blank_line l \/ exists r, l = m ++ r) /\
  ((forall l, In l ls -> blank_line l) -> m = []) /\
  forall m', Forall indent_char m' ->
    (forall l, In l ls -> blank_line l \/ exists r, l = m' ++ r) ->
    (exists l, In l ls /\ ~ blank_line l) -> length m' <= length m.

(** [line] is re-indented to [out]: every 4 leading spaces become one [indention],
    in addition to those of the level. *)
Definition reindented (level : nat) (indention line out : str) : Prop :=
  exists n k rest,
    line = repeat 32%N (4 * n + k) ++ rest /\ k < 4 /\
    (forall r, rest <> 32%N :: r) /\
    out = concat (repeat indention (n + level)) ++ repeat 32%N k ++ rest.

(** The output for one line, with the margin [m], of the source: for a line of blanks
    only the indention of the level and the line feed are left. *)
Definition reindented_lf_line (level : nat) (indention m line out : str) : Prop :=
  (blank_line line /\
   out = (if ends_with [10%N] line then concat (repeat indention level) ++ [10%N] else [])) \/
  (~ blank_line line /\
   exists r outs, line = m ++ r /\ Forall2 (reindented level indention) (splitlines_keep r) outs /\
                  out = concat outs).
