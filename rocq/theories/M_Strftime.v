(** Model of mapry/strftime.py, mapry/go/timeformat.py, the format checks of
    mapry/validation.py and mapry/go/validation.py, and (trusted, external) the
    layout reader of Go's package time. *)
From Verif Require Import Base M_Naming.
From Coq Require Import String Ascii List Arith NArith Bool.
Import ListNotations.

(** lexery.Token restricted to the two rules of strftime.py:9-14. *)
Inductive token :=
| Directive (content : str)
| Text (content : str).

Definition content (t : token) : str :=
  match t with Directive c => c | Text c => c end.

Definition pct : chr := 37%N.

Definition flush (acc : str) : list token :=
  match acc with [] => [] | _ => [Text (rev acc)] end.

(** strftime.py:9-14: [_LEXER] on one line.  Rules: directive [%[a-zA-Z%]], text
    [[^%]+] (greedy); anything else raises lexery.Error.  [acc] is the current
    run of text, reversed. *)
Fixpoint lex_go (acc : str) (s : str) : res (list token) :=
  match s with
  | [] => Ok (flush acc)
  | c :: s' =>
      if N.eqb c pct then
        match s' with
        | d :: s'' =>
            if is_alpha d || N.eqb d pct then
              do ts <- lex_go [] s''; Ok (flush acc ++ Directive [c; d] :: ts)
            else Raise LexeryError
        | [] => Raise LexeryError
        end
      else lex_go (c :: acc) s'
  end.
Definition lex_line (s : str) : res (list token) := lex_go [] s.

Fixpoint lex_lines (ls : list str) : res (list (list token)) :=
  match ls with
  | [] => Ok []
  | l :: ls' => do t <- lex_line l; do ts <- lex_lines ls'; Ok (t :: ts)
  end.

Definition dir (c : ascii) : str := [pct; N_of_ascii c].

(** strftime.py:23-43 *)
Definition SUPPORTED_DIRECTIVES : list str :=
  map dir (list_ascii_of_string "aAbBdemyYHIlMPpSzZ%").
(** strftime.py:46-59 *)
Definition DATE_DIRECTIVES : list str :=
  map dir (list_ascii_of_string "aAbBdemyYzZ%").
(** strftime.py:62-73 *)
Definition TIME_DIRECTIVES : list str :=
  map dir (list_ascii_of_string "HIlMPpSzZ%").

Definition directive_in (allowed : list str) (t : token) : bool :=
  match t with Directive c => mem c allowed | Text _ => true end.

(** strftime.py:76-106.  lexery splits the text with [str.splitlines] before
    lexing (lexery is external; trusted). *)
Definition tokenize (format : str) : res (list (list token)) :=
  do token_lines <- lex_lines (splitlines format);
  if forallb (forallb (directive_in SUPPORTED_DIRECTIVES)) token_lines
  then Ok token_lines
  else Raise NotImplementedError.

(** strftime.py:109-150: [true] stands for the result None. *)
Definition validate_tokens (allowed : list str) (token_lines : list (list token)) : bool :=
  if (fold_right (fun l n => length l + n) 0 token_lines =? 0)%nat then false
  else forallb (forallb (directive_in allowed)) token_lines.
Definition validate_date_tokens := validate_tokens DATE_DIRECTIVES.
Definition validate_time_tokens := validate_tokens TIME_DIRECTIVES.

(** mapry/validation.py:276-298, 300-322, 324-337: the checks of an explicit
    [format]; [true] stands for "no error". *)
Definition date_format_valid (format : str) : bool :=
  match tokenize format with Ok t => validate_date_tokens t | Raise _ => false end.
Definition time_format_valid (format : str) : bool :=
  match tokenize format with Ok t => validate_time_tokens t | Raise _ => false end.
Definition datetime_format_valid (format : str) : bool := is_ok (tokenize format).

(** ** Conversion to Go *)

(** mapry/go/timeformat.py:10-30 *)
Definition STRFTIME_TO_GO : list (str * str) :=
  [ (s_ "%a", s_ "Sun"); (s_ "%A", s_ "Sunday"); (s_ "%b", s_ "Jan");
    (s_ "%B", s_ "January"); (s_ "%d", s_ "02"); (s_ "%e", s_ "_2");
    (s_ "%m", s_ "01"); (s_ "%y", s_ "06"); (s_ "%Y", s_ "2006");
    (s_ "%H", s_ "15"); (s_ "%I", s_ "03"); (s_ "%l", s_ "3");
    (s_ "%M", s_ "04"); (s_ "%P", s_ "pm"); (s_ "%p", s_ "PM");
    (s_ "%S", s_ "05"); (s_ "%z", s_ "-0700"); (s_ "%Z", s_ "MST");
    (s_ "%%", s_ "%") ].

(** timeformat.py:54-64, one token. *)
Definition convert_token (t : token) : res str :=
  match t with
  | Directive c => match lookup c STRFTIME_TO_GO with Some g => Ok g | None => Raise AssertionError end
  | Text c => Ok c
  end.

Fixpoint convert_line (ts : list token) : res str :=
  match ts with
  | [] => Ok []
  | t :: ts' => do a <- convert_token t; do b <- convert_line ts'; Ok (a ++ b)
  end.

Fixpoint convert_lines (ls : list (list token)) : res (list str) :=
  match ls with
  | [] => Ok []
  | l :: ls' => do a <- convert_line l; do b <- convert_lines ls'; Ok (a :: b)
  end.

(** timeformat.py:33-66; the postcondition [not result.endswith('\n')] is a check. *)
Definition convert (a_format : str) : res str :=
  do tkn_lines <- tokenize a_format;
  do parts <- convert_lines tkn_lines;
  let result := join [10%N] parts in
  if ends_with [10%N] result then Raise ViolationError else Ok result.

(** [needle in haystack] for strings. *)
Fixpoint substring_in (needle hay : str) : bool :=
  starts_with needle hay || match hay with [] => false | _ :: h => substring_in needle h end.

(** mapry/go/validation.py:234-253 *)
Definition GO_TIME_FORMAT_DIRECTIVES : list str :=
  [ s_ "Sunday"; s_ "Sun"; s_ "January"; s_ "Jan"; s_ "02"; s_ "_2"; s_ "01";
    s_ "2006"; s_ "06"; s_ "15"; s_ "03"; s_ "3"; s_ "04"; s_ "pm"; s_ "PM";
    s_ "05"; s_ "-0700"; s_ "MST" ].

Definition text_conflicts (t : token) : bool :=
  match t with
  | Directive _ => false
  | Text c => existsb (fun d => substring_in d c) GO_TIME_FORMAT_DIRECTIVES
  end.

(** mapry/go/validation.py:259-309 for the format of one type; [true] stands for
    "no error appended" (tokenize does not raise on validated formats). *)
Definition go_format_valid (format : str) : bool :=
  match tokenize format with
  | Ok ls => negb (existsb (existsb text_conflicts) ls)
  | Raise _ => false
  end.

(** ** Go's reading of a layout (external; trusted)

    Transcription of nextStdChunk of Go's time/format.go (Go 1.11).  A chunk is
    recognized at the current position or the character is literal. *)
Inductive go_field :=
| stdLongMonth | stdMonth | stdNumMonth | stdZeroMonth
| stdLongWeekDay | stdWeekDay
| stdDay | stdUnderDay | stdZeroDay
| stdHour | stdHour12 | stdZeroHour12
| stdMinute | stdZeroMinute | stdSecond | stdZeroSecond
| stdLongYear | stdYear
| stdPM | stdpm | stdTZ
| stdNumSecondsTz | stdNumColonSecondsTZ | stdNumTZ | stdNumColonTZ | stdNumShortTZ
| stdISO8601SecondsTZ | stdISO8601ColonSecondsTZ | stdISO8601TZ | stdISO8601ColonTZ | stdISO8601ShortTZ
| stdFracSecond.

Definition starts_with_lower (s : str) : bool :=
  match s with c :: _ => is_lower c | [] => false end.

Fixpoint run_length (c : chr) (s : str) : nat :=
  match s with x :: s' => if N.eqb x c then S (run_length c s') else 0 | [] => 0 end.

Definition starts_digit (s : str) : bool :=
  match s with c :: _ => is_digit c | [] => false end.

(** The chunk starting exactly at the head of the layout, with its length. *)
Definition chunk_at (s : str) : option (go_field * nat) :=
  match s with
  | [] => None
  | c :: r =>
      if N.eqb c 74 (* J *) then
        if starts_with (s_ "Jan") s then
          if starts_with (s_ "January") s then Some (stdLongMonth, 7)
          else if negb (starts_with_lower (skipn 3 s)) then Some (stdMonth, 3) else None
        else None
      else if N.eqb c 77 (* M *) then
        if starts_with (s_ "Monday") s then Some (stdLongWeekDay, 6)
        else if starts_with (s_ "Mon") s && negb (starts_with_lower (skipn 3 s)) then Some (stdWeekDay, 3)
        else if starts_with (s_ "MST") s then Some (stdTZ, 3) else None
      else if N.eqb c 48 (* 0 *) then
        match r with
        | 49%N :: _ => Some (stdZeroMonth, 2)
        | 50%N :: _ => Some (stdZeroDay, 2)
        | 51%N :: _ => Some (stdZeroHour12, 2)
        | 52%N :: _ => Some (stdZeroMinute, 2)
        | 53%N :: _ => Some (stdZeroSecond, 2)
        | 54%N :: _ => Some (stdYear, 2)
        | _ => None
        end
      else if N.eqb c 49 (* 1 *) then
        if starts_with (s_ "15") s then Some (stdHour, 2) else Some (stdNumMonth, 1)
      else if N.eqb c 50 (* 2 *) then
        if starts_with (s_ "2006") s then Some (stdLongYear, 4) else Some (stdDay, 1)
      else if N.eqb c 95 (* _ *) then
        if starts_with (s_ "_2006") s then None  (* literal _, then the year *)
        else if starts_with (s_ "_2") s then Some (stdUnderDay, 2) else None
      else if N.eqb c 51 then Some (stdHour12, 1)
      else if N.eqb c 52 then Some (stdMinute, 1)
      else if N.eqb c 53 then Some (stdSecond, 1)
      else if N.eqb c 80 (* P *) then if starts_with (s_ "PM") s then Some (stdPM, 2) else None
      else if N.eqb c 112 (* p *) then if starts_with (s_ "pm") s then Some (stdpm, 2) else None
      else if N.eqb c 45 (* - *) then
        if starts_with (s_ "-070000") s then Some (stdNumSecondsTz, 7)
        else if starts_with (s_ "-07:00:00") s then Some (stdNumColonSecondsTZ, 9)
        else if starts_with (s_ "-0700") s then Some (stdNumTZ, 5)
        else if starts_with (s_ "-07:00") s then Some (stdNumColonTZ, 6)
        else if starts_with (s_ "-07") s then Some (stdNumShortTZ, 3) else None
      else if N.eqb c 90 (* Z *) then
        if starts_with (s_ "Z070000") s then Some (stdISO8601SecondsTZ, 7)
        else if starts_with (s_ "Z07:00:00") s then Some (stdISO8601ColonSecondsTZ, 9)
        else if starts_with (s_ "Z0700") s then Some (stdISO8601TZ, 5)
        else if starts_with (s_ "Z07:00") s then Some (stdISO8601ColonTZ, 6)
        else if starts_with (s_ "Z07") s then Some (stdISO8601ShortTZ, 3) else None
      else if N.eqb c 46 (* . *) then
        match r with
        | d :: _ =>
            if N.eqb d 48 || N.eqb d 57 then
              let n := run_length d r in
              if negb (starts_digit (skipn n r)) then Some (stdFracSecond, S n) else None
            else None
        | [] => None
        end
      else None
  end.

Inductive item (F : Type) := Field (f : F) | Lit (c : chr).
Arguments Field {F}. Arguments Lit {F}.

(** The fields and literal characters of a Go layout; [skip] characters belong
    to the chunk just read. *)
Fixpoint layout_items (skip : nat) (s : str) : list (item go_field) :=
  match s with
  | [] => []
  | c :: s' =>
      match skip with
      | S k => layout_items k s'
      | O =>
          match chunk_at s with
          | Some (f, n) => Field f :: layout_items (n - 1) s'
          | None => Lit c :: layout_items 0 s'
          end
      end
  end.
Definition go_layout (s : str) : list (item go_field) := layout_items 0 s.
