(** Model of the text utilities of the generators: string literals, comments,
    docstrings and re-indention. *)
From Verif Require Import Base M_Schema.
From Coq Require Import String Ascii List Arith NArith ZArith Bool.
Import ListNotations.
Open Scope list_scope.

(** ** Python built-ins *)

(** [s.replace(c, tgt)] for a single character [c]. *)
Definition replace_char (c : chr) (tgt : str) (s : str) : str :=
  flat_map (fun x => if N.eqb x c then tgt else [x]) s.

(** Replaces three quotes by three escaped quotes, from the left, not overlapping. *)
Fixpoint replace_triple (s : str) : str :=
  match s with
  | [] => []
  | a :: t =>
      match t with
      | b :: c :: u =>
          if N.eqb a 34 && N.eqb b 34 && N.eqb c 34
          then [92; 34; 92; 34; 92; 34]%N ++ replace_triple u
          else a :: replace_triple t
      | _ => a :: replace_triple t
      end
  end.

(** Three quotes occur in the text. *)
Fixpoint has_triple (s : str) : bool :=
  match s with
  | [] => false
  | _ :: t => starts_with [34; 34; 34]%N s || has_triple t
  end.

(** [str.isspace] of a character. *)
Definition is_space (c : chr) : bool :=
  existsb (N.eqb c) [9;10;11;12;13;28;29;30;31;32;133;160;5760;8192;8193;8194;8195;8196;8197;
                     8198;8199;8200;8201;8202;8232;8233;8239;8287;12288]%N.
(** [not s.strip()] *)
Definition blank (s : str) : bool := forallb is_space s.

Fixpoint takewhile {A} (p : A -> bool) (l : list A) : list A :=
  match l with [] => [] | x :: l' => if p x then x :: takewhile p l' else [] end.
Fixpoint dropwhile {A} (p : A -> bool) (l : list A) : list A :=
  match l with [] => [] | x :: l' => if p x then dropwhile p l' else l end.

(** [s * n] *)
Definition times (s : str) (n : Z) : str := concat (repeat s (Z.to_nat n)).

(** ** String literals *)

(** mapry/go/generate/__init__.py:107-118 and mapry/cpp/generate/__init__.py:136-147,
    the [mapping] *)
Definition escapes : list (chr * str) :=
  [(92, s_ "\\"); (34, s_ "\"""); (7, s_ "\a"); (8, s_ "\b"); (9, s_ "\t"); (10, s_ "\n");
   (11, s_ "\v"); (12, s_ "\f"); (13, s_ "\r"); (27, s_ "\e")]%N.

(** mapry/go/generate/__init__.py:90-124 and mapry/cpp/generate/__init__.py:121-153,
    [escaped_str] (the same code) *)
Definition escaped_str (text : str) : str :=
  [34%N] ++ fold_left (fun r m => replace_char (fst m) (snd m) r) escapes text ++ [34%N].

(** mapry/go/generate/__init__.py:128-155, [ticked_str] *)
Definition ticked_str (text : str) : str :=
  match split_on 96 text with
  | [] => []
  | part :: parts =>
      (s_ "`" ++ part ++ s_ "`") ++
      concat (map (fun p => s_ "+""`""+" ++ [10%N] ++ s_ "    `" ++ p ++ s_ "`") parts)
  end.

(** mapry/py/generate/fromjsonable.py:469, 543, 1648: [r'{{ pattern }}'] *)
Definition py_pattern (pattern : str) : str := s_ "r'" ++ pattern ++ s_ "'".

(** mapry/cpp/generate/jsoncpp_impl.py:205 and the patterns of strings and paths
    (773, 865): a raw string literal with the delimiter v0g0n *)
Definition cpp_pattern (pattern : str) : str := s_ "R""v0g0n(" ++ pattern ++ s_ ")v0g0n""".

(** ** Comments *)

(** [comment] of mapry/py/generate/__init__.py:15-29 (marker [#]),
    mapry/go/generate/__init__.py:15-29 and mapry/cpp/generate/__init__.py:11-25
    (marker [//]) *)
Definition comment (marker text : str) : str :=
  join [10%N] (map (fun line => if blank line then marker else marker ++ s_ " " ++ line)
                   (splitlines text)).

(** ** Docstrings *)

(** mapry/py/generate/__init__.py:108-144, [docstring]; the precondition (106) is
    that the text is not empty. *)
Definition docstring (text : str) : str :=
  let has_backslash := existsb (N.eqb 92) text in
  let has_triple_quote := has_triple text in
  let content := if has_triple_quote then replace_triple (replace_char 92 (s_ "\\") text) else text in
  let is_raw := if has_triple_quote then false else has_backslash in
  (if is_raw then s_ "r" else []) ++
  match length (splitlines text) with
  | O => []
  | 1 => s_ """""""" ++ content ++ s_ """"""""
  | _ => s_ """""""" ++ [10%N] ++ content ++ [10%N] ++ s_ """"""""
  end.

(** ** Re-indention *)

Definition is_blank_char (c : chr) : bool := N.eqb c 32 || N.eqb c 9.

(** The lines as seen by regular expressions with re.MULTILINE, with their ends. *)
Fixpoint nlines_go (acc : str) (s : str) : list str :=
  match s with
  | [] => match acc with [] => [] | _ => [rev acc] end
  | c :: s' => if N.eqb c 10 then rev (c :: acc) :: nlines_go [] s' else nlines_go (c :: acc) s'
  end.
Definition nlines (s : str) : list str := nlines_go [] s.

(** [_whitespace_only_re.sub('', text)] of textwrap, per line: '^[ \t]+$' *)
Definition empty_blank (line : str) : str :=
  match dropwhile is_blank_char line with
  | [] => []
  | c :: r => if N.eqb c 10 then [10%N] else line
  end.

(** [_leading_whitespace_re.findall(text)] of textwrap: the blanks before the first
    character which is neither a blank nor a line feed *)
Definition indent_of (line : str) : option str :=
  match dropwhile is_blank_char line with
  | [] => None
  | c :: _ => if N.eqb c 10 then None else Some (takewhile is_blank_char line)
  end.

(** The common prefix, textwrap.dedent: [indent.startswith(margin)],
    [margin.startswith(indent)] or the loop over [zip(margin, indent)]. *)
Fixpoint common_prefix (a b : str) : str :=
  match a, b with
  | x :: a', y :: b' => if N.eqb x y then x :: common_prefix a' b' else []
  | _, _ => []
  end.
Definition margin_step (margin : option str) (indent : str) : option str :=
  match margin with
  | None => Some indent
  | Some m =>
      if starts_with m indent then Some m
      else if starts_with indent m then Some indent
      else Some (common_prefix m indent)
  end.
Fixpoint filter_some {A} (l : list (option A)) : list A :=
  match l with
  | [] => []
  | Some a :: l' => a :: filter_some l'
  | None :: l' => filter_some l'
  end.
Definition margin_of (lines : list str) : str :=
  match fold_left margin_step (filter_some (map indent_of lines)) None with
  | Some m => m
  | None => []
  end.

(** [re.sub(r'(?m)^' + margin, '', text)], per line *)
Definition drop_margin (margin line : str) : str :=
  if starts_with margin line then skipn (length margin) line else line.

(** [textwrap.dedent] (called in mapry/indention.py:39) *)
Definition dedent (text : str) : str :=
  let lines := map empty_blank (nlines text) in
  concat (map (drop_margin (margin_of lines)) lines).

(** The number of leading groups of 4 spaces: [_SPACE4_RE], mapry/indention.py:6 *)
Fixpoint groups (s : str) : nat * str :=
  match s with
  | a :: b :: c :: d :: s' =>
      if N.eqb a 32 && N.eqb b 32 && N.eqb c 32 && N.eqb d 32
      then let (n, r) := groups s' in (S n, r)
      else (0, s)
  | _ => (0, s)
  end.

(** mapry/indention.py:9-59, [reindent]; the float division by 4 is exact below 2^53
    spaces. *)
Definition reindent_line (level : Z) (indention line : str) : str :=
  let (n, r) := groups line in
  match n with
  | O => times indention level ++ line
  | _ => times indention (Z.of_nat n + level) ++ r
  end.
Definition reindent (text : str) (level : Z) (indention : str) : str :=
  concat (map (reindent_line level indention) (splitlines_keep (dedent text))).

(** ** Sorting *)

(** [sorted(xs, key=...)] with a Boolean key, False first: a stable insertion sort *)
Fixpoint insert_by {A} (key : A -> bool) (x : A) (l : list A) : list A :=
  match l with
  | [] => [x]
  | y :: l' => if key x && negb (key y) then y :: insert_by key x l' else x :: l
  end.
Fixpoint sorted_by {A} (key : A -> bool) (l : list A) : list A :=
  match l with [] => [] | x :: l' => insert_by key x (sorted_by key l') end.

(** mapry/py/generate/__init__.py:147-155, [order_by_optional] *)
Definition order_by_optional (ps : list prop) : list prop := sorted_by p_optional ps.
