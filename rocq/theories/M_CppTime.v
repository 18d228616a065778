(** The generated C++ function [tm_to_string],
    mapry/cpp/generate/jsoncpp_impl.py:2190-2224. *)
From Verif Require Import Base.
From Coq Require Import List Arith NArith Bool.
Import ListNotations.

(** The number of bytes of a text in UTF-8 ([strlen] and [strftime] count bytes). *)
Definition utf8_char (c : chr) : nat :=
  if (c <? 128)%N then 1 else if (c <? 2048)%N then 2 else if (c <? 65536)%N then 3 else 4.
Definition utf8_size (s : str) : nat := fold_right (fun c n => utf8_char c + n) 0 s.

Inductive tm_result :=
| TmText (text : str)   (** returned *)
| TmThrow               (** [buf.resize] threw std::length_error or std::bad_alloc *)
| TmFuel.               (** does not occur, see [tm_fuel_suffices] *)

Section Loop.
  (** The largest size of a std::string which can be allocated. *)
  Variable max_size : N.

  (** [strftime(&buf[0], size, fmt, &t)] where the expansion is [text]: its length,
      or 0 if it does not fit together with the terminating zero. *)
  Definition strftime_len (text : str) (size : N) : N :=
    if (N.of_nat (utf8_size text) <? size)%N then N.of_nat (utf8_size text) else 0%N.

  (** jsoncpp_impl.py:2217-2220, [while(len == 0)]: the variable assigned in the body
      is a new one, the one in the condition keeps its value. *)
  Fixpoint tm_loop (fuel : nat) (text : str) (size len : N) : tm_result :=
    if (len =? 0)%N then
      match fuel with
      | O => TmFuel
      | S fuel' =>
          if (max_size <? size * 2)%N then TmThrow
          else
            let size' := (size * 2)%N in
            let len' := strftime_len text size' in   (* [int len = ...], not used *)
            tm_loop fuel' text size' len
      end
    else TmText text.

  (** jsoncpp_impl.py:2206-2223; [text] is the expansion of the format by
      [strftime].  The buffer is cut to the length at the end, which leaves the
      text. *)
  Definition tm_to_string (fmt text : str) : tm_result :=
    match fmt with
    | [] => TmText []
    | _ =>
        let fmt_size := N.of_nat (utf8_size fmt) in
        if (max_size <? fmt_size * 4)%N then TmThrow
        else tm_loop (S (N.size_nat max_size)) text (fmt_size * 4) (strftime_len text (fmt_size * 4))
    end.
End Loop.
