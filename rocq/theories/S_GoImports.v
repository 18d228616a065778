(** What it means that the imports of a Go source are right. *)
From Coq Require Import String List Arith NArith ZArith Bool.
From Verif Require Import Base M_Schema M_TypeGraph S_Walk.
Import ListNotations.
Open Scope list_scope.

(** Go refuses a source which imports a package twice, which imports a package and does
    not mention it, or which mentions a package and does not import it. *)
Definition exact_imports (declared used : list str) : Prop :=
  NoDup declared /\ forall p, In p declared <-> In p used.

(** The kind of a value type which is neither a class nor an embeddable structure. *)
Definition type_kind (t : ty) : option kind :=
  match t with
  | TBool => Some (KPrim PBoolean)
  | TInt _ => Some (KPrim PInteger)
  | TFloat _ => Some (KPrim PFloat)
  | TStr _ => Some (KPrim PString)
  | TPath _ => Some (KPrim PPath)
  | TDate _ => Some (KPrim PDate)
  | TTime _ => Some (KPrim PTime)
  | TDatetime _ => Some (KPrim PDatetime)
  | TTimeZone => Some (KPrim PTimeZone)
  | TDuration => Some (KPrim PDuration)
  | TArray _ _ _ => Some KArray
  | TMap _ => Some KMap
  | TClass _ | TEmbed _ => None
  end.

(** A value of the kind occurs in the graph. *)
Definition occurs (g : graph) (q : kind) : Prop := exists t ref, value_type g t ref /\ type_kind t = Some q.
