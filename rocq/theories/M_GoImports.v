(** The imports of the generated Go sources, and the packages which they use:
    mapry/go/generate/{types,fromjsonable,tojsonable,fromjsonable_test,tojsonable_test}.py.

    Of the templates only the qualifiers of packages are kept, as lists of the packages
    mentioned in the rendered text (in comments they are left out). *)
From Coq Require Import String List Arith NArith ZArith Bool.
From Verif Require Import Base M_Naming M_Schema M_TypeGraph M_Walk.
From Verif Require M_GoGen.
Import ListNotations.
Open Scope list_scope.
Local Open Scope nat_scope.

(** * The objects of a schema

    mapry/parse.py creates one object for each class, for each embeddable structure and
    for the graph, and one for every mention of another type. *)

(** The position of the first element with the name. *)
Fixpoint position (n : str) (l : list str) : nat :=
  match l with [] => 0 | m :: l' => if str_eqb n m then 0 else S (position n l') end.

Section Heap.
  Variable g : graph.
  Definition n_classes : nat := length (g_classes g).
  Definition n_embeds : nat := length (g_embeds g).

  (** parse.py:106-188: the new objects, placed from [base] on, and the address of the
      type. *)
  Fixpoint place_type (t : ty) (base : addr) : list tobj * addr :=
    match t with
    | TBool => ([OPrim PBoolean], base)
    | TInt _ => ([OPrim PInteger], base)
    | TFloat _ => ([OPrim PFloat], base)
    | TStr _ => ([OPrim PString], base)
    | TPath _ => ([OPrim PPath], base)
    | TDate _ => ([OPrim PDate], base)
    | TTime _ => ([OPrim PTime], base)
    | TDatetime _ => ([OPrim PDatetime], base)
    | TTimeZone => ([OPrim PTimeZone], base)
    | TDuration => ([OPrim PDuration], base)
    | TArray values _ _ => let (os, a) := place_type values (S base) in (OArray a :: os, base)
    | TMap values => let (os, a) := place_type values (S base) in (OMap a :: os, base)
    | TClass n => ([], position n (map c_name (g_classes g)))
    | TEmbed n => ([], n_classes + position n (map e_name (g_embeds g)))
    end.

  (** parse.py:191-266: the types of the properties *)
  Fixpoint place_props (ps : list prop) (base : addr) : list tobj * list addr :=
    match ps with
    | [] => ([], [])
    | p :: ps' =>
        let (os, a) := place_type (p_type p) base in
        let (os', l) := place_props ps' (base + length os) in
        (os ++ os', a :: l)
    end.
  Fixpoint place_composites (l : list (list prop)) (base : addr) : list tobj * list (list addr) :=
    match l with
    | [] => ([], [])
    | ps :: l' =>
        let (os, a) := place_props ps base in
        let (os', r) := place_composites l' (base + length os) in
        (os ++ os', a :: r)
    end.

  (** parse.py:269-364: the classes come first, then the embeds, the graph, and the
      types of their properties. *)
  Definition root : addr := n_classes + n_embeds.
  Definition heap_of : heap :=
    let (pool, addrs) := place_composites (map c_props (g_classes g) ++ map e_props (g_embeds g) ++ [g_props g]) (S root) in
    map (fun ca => OClass (c_name (fst ca)) (snd ca)) (combine (g_classes g) addrs) ++
    map (fun ea => OEmbed (e_name (fst ea)) (snd ea)) (combine (g_embeds g) (skipn n_classes addrs)) ++
    [OGraph (List.seq 0 n_classes) (List.seq n_classes n_embeds) (nth root addrs [])] ++
    pool.

  (** [mapry.needs_type(a_type=graph, query=q)] *)
  Definition graph_needs (q : kind) : bool :=
    match needs_type heap_of q (2 * length heap_of + 2) root with Some b => b | None => false end.
End Heap.

(** * Imports *)

Definition pkg_fmt : str := s_ "fmt".
Definition pkg_math : str := s_ "math".
Definition pkg_regexp : str := s_ "regexp".
Definition pkg_strconv : str := s_ "strconv".
Definition pkg_strings : str := s_ "strings".
Definition pkg_time : str := s_ "time".

(** go/generate/__init__.py:159-190: the packages are declared once each, in order
    ([str_leb] is the order of Python strings).  The text around the names is left out. *)
Fixpoint insert_str (a : str) (l : list str) : list str :=
  match l with [] => [a] | b :: l' => if str_leb a b then a :: l else b :: insert_str a l' end.
Definition import_declarations (set : list str) : list str := fold_right insert_str [] (nodup (list_eq_dec N.eq_dec) set).

Definition when (b : bool) (l : list str) : list str := if b then l else [].

(** fromjsonable.py:41-95 *)
Definition constrained (t : ty) : bool :=
  match t with TStr (Some _) | TPath (Some _) => true | _ => false end.
Definition is_array (t : ty) : bool := match t with TArray _ _ _ => true | _ => false end.
Definition from_jsonable_imports (g : graph) : list str :=
  let has_pattern := existsb (fun tr => constrained (fst tr)) (iterate_over_types g) ||
                     existsb (fun c => match c_id_pattern c with Some _ => true | None => false end) (g_classes g) in
  import_declarations
    ([pkg_strings; pkg_fmt] ++
     when (graph_needs g (KPrim PInteger)) [pkg_math] ++
     when (existsb (fun q => graph_needs g (KPrim q)) [PDate; PTime; PDatetime; PTimeZone]) [pkg_time] ++
     when (graph_needs g (KPrim PDuration)) [pkg_math; pkg_time; pkg_regexp; pkg_strconv] ++
     when has_pattern [pkg_regexp] ++
     when (existsb (fun tr => is_array (fst tr)) (iterate_over_types g)) [pkg_strconv]).

(** tojsonable.py:19-37 *)
Definition to_jsonable_imports (g : graph) : list str :=
  import_declarations
    (when (match g_classes g with [] => false | _ => true end) [pkg_fmt] ++
     when (graph_needs g (KPrim PDuration)) [pkg_fmt; pkg_strings; pkg_time]).

(** types.py:14-31 *)
Definition types_imports (g : graph) : list str :=
  import_declarations (when (existsb (fun q => graph_needs g (KPrim q)) [PDate; PTime; PDatetime; PDuration; PTimeZone]) [pkg_time]).

(** fromjsonable_test.py:15-28 *)
Definition from_jsonable_test_imports (g : graph) : list str :=
  import_declarations (when (graph_needs g (KPrim PDuration)) [pkg_fmt]).

(** tojsonable_test.py:15-29 *)
Definition to_jsonable_test_imports (g : graph) : list str :=
  import_declarations (when (graph_needs g (KPrim PDuration)) [pkg_fmt; pkg_time]).

(** parse.py:70-83: no imports *)
Definition parse_imports : list str := [].

(** * Uses *)

(** go/generate/__init__.py:32-87, [type_repr] *)
Fixpoint type_repr_uses (t : ty) : list str :=
  match t with
  | TDate _ | TTime _ | TDatetime _ | TTimeZone | TDuration => [pkg_time]
  | TArray values _ _ | TMap values => type_repr_uses values
  | TBool | TInt _ | TFloat _ | TStr _ | TPath _ | TClass _ | TEmbed _ => []
  end.

(** The error message with its reference, e.g. fromjsonable.py:432-439: the Go
    expressions [refs] of the reference are joined. *)
Definition report_uses (refs : list str) : list str := [pkg_strings] ++ refs ++ [pkg_fmt].

(** fromjsonable.py:1132-1253 [_parse_value] with the templates at 423-441, 470-551,
    580-637, 666-702, 735-771, 802-836, 863-897, 923-980, 1029-1066, 1384-1417 and
    1449-1463; [refs] are the packages used by the Go expressions of the reference. *)
Fixpoint parse_uses (t : ty) (refs : list str) : list str :=
  match t with
  | TBool => report_uses refs
  | TInt b =>
      report_uses refs ++ [pkg_math] ++ report_uses refs ++ report_uses refs ++
      (if b_min b then report_uses refs else []) ++ (if b_max b then report_uses refs else [])
  | TFloat b =>
      report_uses refs ++ (if b_min b then report_uses refs else []) ++ (if b_max b then report_uses refs else [])
  | TStr p | TPath p => report_uses refs ++ (if p then report_uses refs else [])
  | TDate _ | TTime _ | TDatetime _ => report_uses refs ++ [pkg_time] ++ report_uses refs
  | TTimeZone => report_uses refs ++ [pkg_time] ++ report_uses refs
  | TDuration => report_uses refs ++ report_uses refs
  | TArray values mn mx =>
      report_uses refs ++ (if mn then report_uses refs else []) ++ (if mx then report_uses refs else []) ++
      type_repr_uses values ++ parse_uses values (refs ++ [pkg_strconv])
  | TMap values => report_uses refs ++ type_repr_uses values ++ parse_uses values refs
  | TClass _ => report_uses refs ++ report_uses refs
  | TEmbed _ => [pkg_strings] ++ refs
  end.

(** fromjsonable.py:1256-1381; the reference of the composite is a parameter. *)
Definition parse_property_uses (p : prop) : list str :=
  (if p_optional p && negb (M_GoGen.is_pointer_type (p_type p)) then type_repr_uses (p_type p) else []) ++ parse_uses (p_type p) [].

(** fromjsonable.py:1502-1612 *)
Definition parse_composite_uses (ps : list prop) : list str := [pkg_fmt] ++ flat_map parse_property_uses ps.

(** fromjsonable.py:1615-1805 *)
Definition parse_graph_uses (g : graph) : list str :=
  [pkg_fmt] ++
  flat_map (fun c => [pkg_fmt] ++ (if c_id_pattern c then [pkg_fmt] else []) ++ [pkg_strings]) (g_classes g) ++
  flat_map parse_property_uses (g_props g).

(** fromjsonable.py:99-322 [_duration_from_string] *)
Definition duration_from_string_uses : list str := [pkg_regexp; pkg_time; pkg_math; pkg_fmt; pkg_strconv; pkg_strings].

(** fromjsonable.py:1809-1844 [generate], with [_compile_regexes] at 402-420 *)
Definition from_jsonable_uses (g : graph) : list str :=
  (if graph_needs g (KPrim PDuration) then duration_from_string_uses else []) ++
  flat_map (fun _ => [pkg_regexp]) (enumerate_patterns g) ++
  flat_map (fun c => parse_composite_uses (c_props c)) (g_classes g) ++
  flat_map (fun e => parse_composite_uses (e_props e)) (g_embeds g) ++
  parse_graph_uses g.

(** tojsonable.py:40-129 [_duration_to_string] *)
Definition duration_to_string_uses : list str := [pkg_time; pkg_fmt; pkg_strings].

(** tojsonable.py:438-577: the serialization of the registries; that of the values
    (132-403) mentions no package. *)
Definition to_jsonable_uses (g : graph) : list str :=
  (if graph_needs g (KPrim PDuration) then duration_to_string_uses else []) ++
  flat_map (fun _ : cls => [pkg_fmt]) (g_classes g).

(** types.py:34-176: [_property_type_repr] of every property *)
Definition types_uses (g : graph) : list str :=
  flat_map (fun e => flat_map (fun p => type_repr_uses (p_type p)) (e_props e)) (g_embeds g) ++
  flat_map (fun c => flat_map (fun p => type_repr_uses (p_type p)) (c_props c)) (g_classes g) ++
  flat_map (fun p => type_repr_uses (p_type p)) (g_props g).

(** fromjsonable_test.py:31-134 and 137-166 *)
Definition from_jsonable_test_uses (g : graph) : list str :=
  if graph_needs g (KPrim PDuration) then [pkg_fmt] else [].

(** tojsonable_test.py:32-88 and 91-120 *)
Definition to_jsonable_test_uses (g : graph) : list str :=
  if graph_needs g (KPrim PDuration) then [pkg_time; pkg_fmt] else [].

(** parse.py:10-66 *)
Definition parse_go_uses : list str := [].
