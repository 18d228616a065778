(** The iteration over the value types of a graph (mapry/__init__.py:481-525)
    and the enumeration of the patterns by the Go generator
    (mapry/go/generate/fromjsonable.py:18-37 and 325-420). *)
From Verif Require Import Base M_Naming M_Schema M_Dec.
From Coq Require Import String List Arith NArith ZArith Bool.
Import ListNotations.
Open Scope list_scope.

(** * Types *)

(** mapry/__init__.py:481-494, [_iterate_over_types_recursively] *)
Fixpoint iterate_type (t : ty) (ref : str) : list (ty * str) :=
  (t, ref) :: match t with
              | TArray values _ _ | TMap values => iterate_type values (ref ++ s_ "/values")
              | _ => []
              end.

(** mapry/__init__.py:497-506, [_iterate_over_composite_types] *)
Definition iterate_composite (composite_ref : str) (ps : list prop) : list (ty * str) :=
  flat_map (fun p => iterate_type (p_type p) (composite_ref ++ s_ "/" ++ p_name p)) ps.

(** mapry/__init__.py:509-525, [iterate_over_types] *)
Definition iterate_over_types (g : graph) : list (ty * str) :=
  flat_map (fun c => iterate_composite (c_ref c) (c_props c)) (g_classes g) ++
  flat_map (fun e => iterate_composite (e_ref e) (e_props e)) (g_embeds g) ++
  iterate_composite (g_ref g) (g_props g).

(** * Patterns

    A pattern is represented by its text: two [re.Pattern] objects compiled from
    texts without flags are equal, as keys of a dictionary, just if their texts
    are.  A [re.Pattern] object is never falsy. *)
Definition pmap := list (str * nat).

(** fromjsonable.py:18-37, [_has_pattern_recursively] *)
Fixpoint has_pattern (t : ty) : bool :=
  match t with
  | TStr (Some _) | TPath (Some _) => true
  | TArray values _ _ | TMap values => has_pattern values
  | _ => false
  end.

(** fromjsonable.py:325-353, [_enumerate_type_patterns_recursively] *)
Fixpoint enum_type (t : ty) (st : pmap * nat) : pmap * nat :=
  match t with
  | TStr (Some p) | TPath (Some p) => let (m, next_id) := st in (upsert p next_id m, S next_id)
  | TArray values _ _ | TMap values => enum_type values st
  | _ => st
  end.

Definition enum_props (ps : list prop) (st : pmap * nat) : pmap * nat :=
  fold_left (fun st p => enum_type (p_type p) st) ps st.

(** fromjsonable.py:356-389, [_enumerate_patterns] *)
Definition enumerate_patterns (g : graph) : pmap :=
  let st0 := fold_left (fun (st : pmap * nat) c =>
                          match c_id_pattern c with
                          | Some p => let (m, next_id) := st in (upsert p next_id m, S next_id)
                          | None => st
                          end) (g_classes g) ([], 0) in
  let st1 := fold_left (fun st c => enum_props (c_props c) st) (g_classes g) st0 in
  let st2 := fold_left (fun st e => enum_props (e_props e) st) (g_embeds g) st1 in
  fst (enum_props (g_props g) st2).

(** [sorted] on integers. *)
Fixpoint insert_nat (n : nat) (l : list nat) : list nat :=
  match l with
  | [] => [n]
  | m :: r => if n <=? m then n :: l else m :: insert_nat n r
  end.
Fixpoint sort_nat (l : list nat) : list nat :=
  match l with [] => [] | n :: r => insert_nat n (sort_nat r) end.

(** [len(set(l)) == len(l)] *)
Fixpoint all_distinct (l : list nat) : bool :=
  match l with [] => true | n :: r => negb (existsb (Nat.eqb n) r) && all_distinct r end.

(** The dictionary [uids_to_patterns]: a later item with the same key replaces an
    earlier one. *)
Definition nlookup (n : nat) (m : list (nat * str)) : option str :=
  match find (fun e => n =? fst e) (rev m) with Some e => Some (snd e) | None => None end.

(** fromjsonable.py:402-420, [_compile_regexes]: the declared variables with their
    patterns, in order.  [None]: the assertion fails or, in the template, a
    [KeyError]. *)
Definition compile_regexes (pattern_uids : pmap) : option (list (str * str)) :=
  if all_distinct (map snd pattern_uids) then
    let uids_to_patterns := map (fun e => (snd e, fst e)) pattern_uids in
    fold_right (fun uid acc =>
                  match nlookup uid uids_to_patterns, acc with
                  | Some p, Some l => Some ((s_ "pattern" ++ dec_nat uid, p) :: l)
                  | _, _ => None
                  end) (Some []) (sort_nat (map fst uids_to_patterns))
  else None.

(** fromjsonable.py:687 and 1686: the variable by which the parsing code refers to
    a pattern; [None]: [KeyError]. *)
Definition pattern_variable (pattern_uids : pmap) (p : str) : option str :=
  match lookup p pattern_uids with Some uid => Some (s_ "pattern" ++ dec_nat uid) | None => None end.
