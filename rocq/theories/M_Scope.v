(** The names in the generated functions: what the three languages have in common. *)
From Coq Require Import String List Arith NArith ZArith Bool.
From Verif Require Import Base M_Naming M_Schema M_TypeGraph M_GoImports S_Scope.
Import ListNotations.
Open Scope list_scope.
Local Open Scope nat_scope.

(** The classes and the embeddable structures which a type mentions. *)
Fixpoint classes_in (t : ty) : list str :=
  match t with
  | TArray values _ _ | TMap values => classes_in values
  | TClass n => [n]
  | _ => []
  end.
Fixpoint embeds_in (t : ty) : list str :=
  match t with
  | TArray values _ _ | TMap values => embeds_in values
  | TEmbed n => [n]
  | _ => []
  end.
Fixpoint has_duration (t : ty) : bool :=
  match t with
  | TArray values _ _ | TMap values => has_duration values
  | TDuration => true
  | _ => false
  end.

Section References.
  Variable g : graph.

  (** mapry/__init__.py:456-495 [references] of the composite at the address [k] of the heap:
      first the classes, then the embeddable structures (see [heap_of]).  The addresses of
      classes are their positions. *)
  Definition references_of (k : nat) : list cls :=
    match nth_error (heap_of g) k with
    | Some (OClass _ ps) | Some (OEmbed _ ps) =>
        match references (heap_of g) (S (length (heap_of g))) ps with
        | Some l => flat_map (fun a => match nth_error (g_classes g) a with Some c => [c] | None => [] end) l
        | None => []
        end
    | _ => []
    end.
  (** of the embeddable structure with the name *)
  Definition embed_references (n : str) : list cls :=
    references_of (length (g_classes g) + position n (map e_name (g_embeds g))).
End References.

(** Mentions of things which are called the same inside and outside of the generator. *)
Definition outer (x : str) : code := Mention (Outer x) x.
Definition outers (l : list string) : list code := map (fun x => outer (s_ x)) l.
Definition own (x : string) : code := Mention (Own x) (s_ x).
Definition owns (l : list string) : list code := map own l.
Definition let_own (x : string) : code := Declare (Own x) (s_ x).
Definition let_autos (l : list str) : list code := map (fun x => Declare (Auto x) x) l.
