(** When the members of a C++ structure have a value before they are assigned (C64).

    An object which is declared without an initializer is default-initialized: a class runs its
    default constructor, a structure without constructors does so with its members, unless they
    have initializers, and everything else has an indeterminate value, which must not be read
    (ISO C++17, 11.6 [dcl.init]). *)
From Coq Require Import String List Arith NArith ZArith Bool.
From Verif Require Import Base M_Schema S_Scope S_CppTyping.
Import ListNotations.
Open Scope list_scope.

(** The initializers: [false], [0], [0.0], [tm{0}], [nullptr] *)
Inductive initializer := InitFalse | InitZero | InitZeroFloat | InitZeroTm | InitNull.
Inductive initializes : initializer -> ctype -> Prop :=
| initializes_bool : initializes InitFalse CBool
| initializes_integer : initializes InitZero CInt64
| initializes_float : initializes InitZeroFloat CDouble
| initializes_tm : initializes InitZeroTm t_tm
| initializes_pointer c t : initializes InitNull (CPointer c t).

(** A member of a structure *)
Record declared := Declared { d_name : str; d_type : ctype; d_initializer : option initializer }.

Section Indeterminate.
  (** Whether the default constructor of [date::time_of_day] sets its parts; this depends on the
      version of date.h. *)
  Variable time_of_day_set : bool.

  (** The types without a constructor which gives a value: numbers and pointers, the structure
      [tm] of C, and [std::chrono::nanoseconds], whose default constructor is defaulted (ISO C++17,
      23.17.5 [time.duration]).  The other types of the libraries have one. *)
  Definition without_value (t : ctype) : Prop :=
    match t with
    | CBool | CInt | CUnsigned | CInt64 | CDouble | CChar | CText | CPointer _ _ => True
    | CNamed _ => t = t_tm \/ t = t_nanoseconds \/ (time_of_day_set = false /\ t = t_time_of_day)
    | _ => False
    end.

  (** A default-initialized object of the type has an indeterminate part. *)
  Inductive indeterminate (structs : list (str * list declared)) : ctype -> Prop :=
  | indeterminate_itself t : without_value t -> indeterminate structs t
  | indeterminate_member x members m :
      In (x, members) structs -> In m members -> d_initializer m = None -> indeterminate structs (d_type m) ->
      indeterminate structs (CNamed x).

  (** ** In terms of the schema *)

  (** There is a required duration among the properties, or a required embeddable structure with
      one, and so forth. *)
  Inductive left_open (g : graph) (ctime : bool) : list prop -> Prop :=
  | left_open_duration ps p : In p ps -> p_optional p = false -> p_type p = TDuration -> left_open g ctime ps
  | left_open_time ps p f :
      time_of_day_set = false -> ctime = false -> In p ps -> p_optional p = false -> p_type p = TTime f -> left_open g ctime ps
  | left_open_embed ps p e :
      In p ps -> p_optional p = false -> In e (g_embeds g) -> p_type p = TEmbed (e_name e) ->
      left_open g ctime (e_props e) -> left_open g ctime ps.

  (** The structures of the schema: the name and the properties *)
  Definition structures (g : graph) : list (str * list prop) :=
    (g_name g, g_props g) :: map (fun c => (c_name c, c_props c)) (g_classes g) ++ map (fun e => (e_name e, e_props e)) (g_embeds g).
End Indeterminate.
