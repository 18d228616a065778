(** Independent specifications for date/time formats. *)
From Verif Require Import Base M_Strftime.
From Coq Require Import String Ascii List NArith Bool.
Import ListNotations.

(** A format over a set of directive letters: every percent sign is followed
    by one of the letters, everything else is literal text. *)
Inductive format_over (letters : str) : str -> Prop :=
| fo_nil : format_over letters []
| fo_text c s : c <> 37%N -> format_over letters s -> format_over letters (c :: s)
| fo_dir c s : In c letters -> format_over letters s -> format_over letters (37%N :: c :: s).

Definition all_letters : str := s_ "aAbBdemyYHIlMPpSzZ%".
Definition date_letters : str := s_ "aAbBdemyYzZ%".
Definition time_letters : str := s_ "HIlMPpSzZ%".

(** The format is more than line breaks. *)
Definition not_blank (s : str) : Prop := exists c, In c s /\ is_linebreak c = false.

(** What a strftime directive stands for, in terms of Go's fields. *)
Definition directive_table : list (str * item go_field) :=
  [ (s_ "a", Field stdWeekDay); (s_ "A", Field stdLongWeekDay);
    (s_ "b", Field stdMonth); (s_ "B", Field stdLongMonth);
    (s_ "d", Field stdZeroDay); (s_ "e", Field stdUnderDay);
    (s_ "m", Field stdZeroMonth);
    (s_ "y", Field stdYear); (s_ "Y", Field stdLongYear);
    (s_ "H", Field stdHour); (s_ "I", Field stdZeroHour12);
    (s_ "l", Field stdHour12); (s_ "M", Field stdZeroMinute);
    (s_ "P", Field stdpm); (s_ "p", Field stdPM);
    (s_ "S", Field stdZeroSecond);
    (s_ "z", Field stdNumTZ); (s_ "Z", Field stdTZ);
    (s_ "%", Lit 37%N) ].
Definition directive_field (c : chr) : option (item go_field) := lookup [c] directive_table.

(** The fields and literals denoted by a strftime format. *)
Fixpoint strftime_items (s : str) : list (item go_field) :=
  match s with
  | [] => []
  | c :: s' =>
      if N.eqb c 37 then
        match s' with
        | d :: s'' =>
            match directive_field d with
            | Some i => i :: strftime_items s''
            | None => Lit c :: strftime_items s'
            end
        | [] => [Lit c]
        end
      else Lit c :: strftime_items s'
  end.

(** Conditions under which the Go conversion is faithful, beyond what mapry's Go
    validation checks: no weekday names; no digits and no "Mon" in literal
    text; no literal "P" right before %Z; no lower-case letter right after %b. *)
Fixpoint go_safe (s : str) : Prop :=
  match s with
  | [] => True
  | c :: s' =>
      if N.eqb c 37 then
        match s' with
        | d :: s'' =>
            d <> 97%N /\ d <> 65%N /\
            (d = 98%N -> (forall x r, s'' = x :: r -> is_lower x = false) /\
                         starts_with (s_ "%P") s'' = false) /\
            go_safe s''
        | [] => True
        end
      else
        is_digit c = false /\ starts_with (s_ "Mon") s = false /\
        starts_with (s_ "P%Z") s = false /\ go_safe s'
  end.

(** Lines are separated by LF only and the last one is not terminated. *)
Definition lf_separated (s : str) : Prop :=
  join [10%N] (splitlines s) = s /\ ends_with [10%N] s = false.
