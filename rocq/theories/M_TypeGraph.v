(** Model of the type-graph queries of mapry/__init__.py.

    A schema is a graph of Python type objects which refer to each other
    (possibly cyclically) and are compared by identity.  The model is a heap:
    an object is identified by its position in a list. *)
From Verif Require Import Base.
From Coq Require Import String List Arith NArith Bool.
Import ListNotations.

Definition addr := nat.

(** mapry/__init__.py:23-205: the primitive types. *)
Inductive prim :=
| PBoolean | PInteger | PFloat | PString | PPath
| PDate | PTime | PDatetime | PTimeZone | PDuration.

(** mapry/__init__.py: Array 148-170, Map 172-185, Embed 212-241, Class 243-285,
    Graph 287-308.  Only the attributes read by the queries are kept: nested
    types by address, the properties as the addresses of their types. *)
Inductive tobj :=
| OPrim (p : prim)
| OArray (values : addr)
| OMap (values : addr)
| OEmbed (name : str) (props : list addr)
| OClass (name : str) (props : list addr)
| OGraph (classes embeds props : list addr).

Definition heap := list tobj.

(** The Python classes that can be queried for ([isinstance] tests). *)
Inductive kind :=
| KPrim (p : prim) | KArray | KMap | KEmbed | KClass | KGraph.

Definition prim_eqb (a b : prim) : bool :=
  match a, b with
  | PBoolean, PBoolean | PInteger, PInteger | PFloat, PFloat | PString, PString
  | PPath, PPath | PDate, PDate | PTime, PTime | PDatetime, PDatetime
  | PTimeZone, PTimeZone | PDuration, PDuration => true
  | _, _ => false
  end.

(** [isinstance(a_type, query)] *)
Definition isinstance (o : tobj) (q : kind) : bool :=
  match o, q with
  | OPrim p, KPrim p' => prim_eqb p p'
  | OArray _, KArray | OMap _, KMap | OEmbed _ _, KEmbed
  | OClass _ _, KClass | OGraph _ _ _, KGraph => true
  | _, _ => false
  end.

Definition mem_addr (a : addr) (v : list addr) : bool := existsb (Nat.eqb a) v.
Definition add_addr (a : addr) (v : list addr) : list addr := if mem_addr a v then v else a :: v.

(** The children in the order in which mapry/__init__.py:372-405 visits them:
    classes, embeds and properties of a graph; properties of a class or embed;
    the values of an array or a map. *)
Definition children_of (o : tobj) : list addr :=
  match o with
  | OPrim _ => []
  | OArray v => [v]
  | OMap v => [v]
  | OEmbed _ ps => ps
  | OClass _ ps => ps
  | OGraph cs es ps => cs ++ es ++ ps
  end.

Section Needs.
  Variable h : heap.
  Variable q : kind.

  (** One of the loops of [_needs_type] (372-405):
      [for c in children: if c not in visited: visited.add(a_type); if
      _needs_type(c, query, visited): return True].  The set is mutable and
      shared, hence threaded.  [rec] is the recursive call. *)
  Fixpoint needs_loop (rec : addr -> list addr -> option (bool * list addr))
           (a : addr) (cs : list addr) (visited : list addr) : option (bool * list addr) :=
    match cs with
    | [] => Some (false, visited)
    | c :: cs' =>
        if mem_addr c visited then needs_loop rec a cs' visited
        else
          match rec c (add_addr a visited) with
          | None => None
          | Some (true, v) => Some (true, v)
          | Some (false, v) => needs_loop rec a cs' v
          end
    end.

  (** mapry/__init__.py:346-409.  [fuel] bounds the depth of the Python call
      stack; [None] means that it does not suffice (or a dangling address). *)
  Fixpoint needs_type_go (fuel : nat) (a : addr) (visited : list addr) : option (bool * list addr) :=
    match fuel with
    | O => None
    | S fuel' =>
        match nth_error h a with
        | None => None
        | Some o =>
            if isinstance o q then Some (true, visited)
            else needs_loop (needs_type_go fuel') a (children_of o) visited
        end
    end.

  (** mapry/__init__.py:412-425 *)
  Definition needs_type (fuel : nat) (a : addr) : option bool :=
    match needs_type_go fuel a [] with Some (b, _) => Some b | None => None end.
End Needs.

Section References.
  Variable h : heap.

  Definition union (a b : list addr) : list addr :=
    a ++ filter (fun x => negb (mem_addr x a)) b.

  (** The loop of mapry/__init__.py:446-449. *)
  Fixpoint refs_loop (rec : addr -> list addr -> option (list addr * list addr))
           (cs : list addr) (result visited : list addr) : option (list addr * list addr) :=
    match cs with
    | [] => Some (result, visited)
    | c :: cs' =>
        match rec c visited with
        | None => None
        | Some (r, v) => refs_loop rec cs' (union result r) v
        end
    end.

  (** The children followed by [_references] (446-453): those of classes,
      embeds, arrays and maps, but not of a graph. *)
  Definition refs_children (o : tobj) : list addr :=
    match o with
    | OEmbed _ ps | OClass _ ps => ps
    | OArray v | OMap v => [v]
    | OPrim _ | OGraph _ _ _ => []
    end.

  Definition is_class (o : tobj) : bool := match o with OClass _ _ => true | _ => false end.

  (** mapry/__init__.py:428-460 *)
  Fixpoint references_go (fuel : nat) (a : addr) (visited : list addr)
    : option (list addr * list addr) :=
    if mem_addr a visited then Some ([], visited)
    else
      match fuel with
      | O => None
      | S fuel' =>
          match nth_error h a with
          | None => None
          | Some o =>
              refs_loop (references_go fuel') (refs_children o)
                        (if is_class o then [a] else []) (a :: visited)
          end
      end.

  (** The loop of mapry/__init__.py:472-473: a fresh visited set per property. *)
  Fixpoint references_props (fuel : nat) (ps : list addr) (result : list addr)
    : option (list addr) :=
    match ps with
    | [] => Some result
    | p :: ps' =>
        match references_go fuel p [] with
        | None => None
        | Some (r, _) => references_props fuel ps' (union result r)
        end
    end.

  Definition class_name (a : addr) : str :=
    match nth_error h a with Some (OClass n _) => n | _ => [] end.

  (** Lexicographic order of code points ([<=] of Python strings). *)
  Fixpoint str_leb (a b : str) : bool :=
    match a, b with
    | [], _ => true
    | _ :: _, [] => false
    | x :: a', y :: b' =>
        if N.ltb x y then true else if N.eqb x y then str_leb a' b' else false
    end.

  Fixpoint insert_by_name (a : addr) (l : list addr) : list addr :=
    match l with
    | [] => [a]
    | b :: l' => if str_leb (class_name a) (class_name b) then a :: l
                 else b :: insert_by_name a l'
    end.
  (** [lst.sort(key=lambda cls: cls.name)], mapry/__init__.py:475-476. *)
  Definition sort_by_name (l : list addr) : list addr := fold_right insert_by_name [] l.

  (** mapry/__init__.py:463-478; [ps] are the types of the properties of the
      inspected class, embed or graph. *)
  Definition references (fuel : nat) (ps : list addr) : option (list addr) :=
    option_map sort_by_name (references_props fuel ps []).
End References.
