(** The members of the generated C++ structures with their initializers:
    mapry/cpp/generate/types_header.py. *)
From Coq Require Import String List Arith NArith ZArith Bool.
From Verif Require Import Base M_Naming M_Schema M_TypeGraph M_GoImports S_Scope M_Scope M_GoScope M_CppScope S_CppTyping M_CppTyping S_CppInit.
Import ListNotations.
Open Scope list_scope.

Section Init.
  Variable cpp : cpp_conf.
  Variable g : graph.
  Notation ctime := (cpp_ctime cpp).

  (** types_header.py:142-222 [_default_value]; the library is one of the two by the validation. *)
  Definition default_value (t : ty) : option initializer :=
    match t with
    | TBool => Some InitFalse
    | TInt _ => Some InitZero
    | TFloat _ => Some InitZeroFloat
    | TStr _ | TPath _ => None
    | TDate _ | TTime _ | TDatetime _ => if ctime then Some InitZeroTm else None
    | TTimeZone => if ctime then None else Some InitNull
    | TDuration | TArray _ _ _ | TMap _ => None
    | TClass _ => Some InitNull
    | TEmbed _ => None
    end.

  (** 226-266 [_property_fields] *)
  Definition property_field (p : prop) : declared :=
    if p_optional p then Declared (p_name p) (COptional (cpp_ty cpp (p_type p))) None
    else Declared (p_name p) (cpp_ty cpp (p_type p)) (default_value (p_type p)).

  (** 269-293 [_embed_definition], 296-324 [_class_definition], 327-364 [_graph_definition], in
      the order of 368-411 [generate] *)
  Definition declared_structs : list (str * list declared) :=
    map (fun e => (ucamel (e_name e), map property_field (e_props e))) (g_embeds g) ++
    map (fun c => (ucamel (c_name c), Declared (s_ "id") CString None :: map property_field (c_props c))) (g_classes g) ++
    [(ucamel (g_name g), map property_field (g_props g) ++
                         map (fun c => Declared (lower (c_plural c)) (t_instances c) None) (g_classes g))].
End Init.
