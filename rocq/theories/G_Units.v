(** The model against the unit tests of the project: the inputs and the expected results of
    /repo/tests and of the tests in Go which mapry generates.  As in G_Golden.v, these are
    tests of the model and no proofs. *)
From Coq Require Import String List Bool Arith NArith ZArith.
From Verif Require Import Base M_Naming M_Text M_Strftime M_Schema M_Dec M_Duration M_Validate M_LangValid M_Walk M_TypeGraph
  G_Runs G_UnitCases.
Import ListNotations.
Local Open Scope nat_scope.

(** * /repo/tests/test_naming.py *)
Example naming_tests :
  map (fun x => (ucamel_case x, camel_case x)) (map s_ ["cv_size_int"; "URLs_to_find"; "some_IDs"; "some_IDs_to_store"]%string) =
  [(Ok (s_ "CvSizeInt"), Ok (s_ "cvSizeInt")); (Ok (s_ "URLsToFind"), Ok (s_ "urlsToFind"));
   (Ok (s_ "SomeIDs"), Ok (s_ "someIDs")); (Ok (s_ "SomeIDsToStore"), Ok (s_ "someIDsToStore"))].
Proof. vm_compute; reflexivity. Qed.

(** * /repo/tests/test_indention.py *)
Example indention_tests :
  reindent (s_ "oi") 3 (s_ "  ") = s_ "      oi" /\
  reindent (s_ "oi" ++ [10%N] ++ s_ "noi") 1 (s_ "  ") = s_ "  oi" ++ [10%N] ++ s_ "  noi".
Proof. split; vm_compute; reflexivity. Qed.

(** * /repo/tests/test_strftime.py *)
Example strftime_tests :
  is_ok (tokenize (s_ "%")) = false /\
  tokenize (s_ "%% %Y-%m-%dT%H:%M:%SZ") =
  Ok [[Directive (s_ "%%"); Text (s_ " "); Directive (s_ "%Y"); Text (s_ "-"); Directive (s_ "%m"); Text (s_ "-");
       Directive (s_ "%d"); Text (s_ "T"); Directive (s_ "%H"); Text (s_ ":"); Directive (s_ "%M"); Text (s_ ":");
       Directive (s_ "%S"); Text (s_ "Z")]] /\
  is_ok (tokenize (s_ "%j %U")) = false.
Proof. repeat split; vm_compute; reflexivity. Qed.

(** * /repo/tests/test_validatation.py and /repo/tests/cpp/test_validation.py *)

(** The text of an error; of some the model does not know the end. *)
Definition quoted (x : str) : str := s_ "'" ++ x ++ s_ "'".
Definition error_lines (e : serr) : list line :=
  let text (ref message : str) := ref ++ s_ ": " ++ message in
  match se_kind e with
  | EJsonSchema _ => map (fun r => Starting (text r (s_ "Does not follow json schema: "))) (se_refs e)
  | ETypeSchema _ => map (fun r => Starting (text r (s_ "Invalid "))) (se_refs e)
  | EDuplicateName name => [Exactly (text (se_ref e) (s_ "Duplicate names: " ++ quoted name))]
  | EIdPattern => [Starting (text (se_ref e) (s_ "Invalid regular expression: "))]
  | EInvalidType => [Starting (text (se_ref e) (s_ "Invalid type: "))]
  | EFormat => [Starting (text (se_ref e) (s_ "Unexpected directive "))]
  | EPlural property cls =>
      [Exactly (text (se_ref e) (s_ "Graph property " ++ quoted property ++
         s_ " conflicts with the plural necessary for the registry of class " ++ quoted cls))]
  | _ => [Starting (text (se_ref e) [])]
  end.
Fixpoint errors_agree (es : list serr) (ls : list str) : bool :=
  match es, ls with
  | [], [] => true
  | e :: es', l :: ls' => existsb (fun x => line_ok x l) (error_lines e) && errors_agree es' ls'
  | _, _ => false
  end.
(** [re.compile] fails on the only pattern with an open bracket. *)
Definition compiles (p : str) : bool := negb (existsb (N.eqb 91) p && negb (existsb (N.eqb 93) p)).
Definition mapping_agrees (c : jval * list str) : bool :=
  match validate compiles false (fst c) (s_ "#") with Ok es => errors_agree es (snd c) | Raise _ => false end.
Example validation_tests : length validation_cases = 12 /\ forallb mapping_agrees validation_cases = true.
Proof. split; vm_compute; reflexivity. Qed.

(** cpp/validation.py *)
Definition cpp_error_line (g : graph) (e : lerr) : str :=
  let field x := s_ ": The C++ field identifier " ++ quoted x in
  let registry x := field x ++ s_ " corresponding to the registry of the class " ++
                    flat_map (fun c => if str_eqb (c_ref c) (le_ref e) then quoted (c_name c) else []) (g_classes g) ++ s_ " in the object graph " in
  le_ref e ++
  match le_kind e with
  | KKeyword x => field x ++ s_ " is a keyword in C++"
  | KConflict x other => field x ++ s_ " conflicts another field (" ++ other ++ s_ ")"
  | KReservedId x => field x ++ s_ " is reserved for class identifiers and used by the autogenerated code"
  | KRegistryKeyword x => registry x ++ s_ "is a reserved keyword in C++"
  | KRegistryProperty x other => registry x ++ s_ "conflicts with another C++ field corresponding to a property of the object graph (" ++ other ++ s_ ")"
  | _ => []
  end.
Definition cpp_mapping_agrees (c : jval * list str) : bool :=
  match schema_from_mapping compiles false (fst c) (s_ "#") with
  | Raise _ => false
  | Ok sc =>
      match cpp_validate (sc_graph sc) with
      | Raise _ => false
      | Ok es => lines_ok (map (fun e => Exactly (cpp_error_line (sc_graph sc) e)) es) (snd c)
      end
  end.
Example cpp_validation_tests : length cpp_validation_cases = 5 /\ forallb cpp_mapping_agrees cpp_validation_cases = true.
Proof. split; vm_compute; reflexivity. Qed.

(** * /repo/tests/test_parse.py: the two invalid mappings *)
Definition references_of (r : res (list serr)) : list (list str) := match r with Ok es => map se_refs es | Raise _ => [] end.
Example parse_tests :
  references_of (validate compiles true (JArr []) (s_ "f#")) = [[s_ "f#"]] /\
  references_of (validate compiles true (JObj [(s_ "name", JObj [(s_ "unexpected", JStr (s_ "value"))]);
                                               (s_ "description", JStr (s_ "some description."))]) (s_ "f#")) = [[s_ "f#/name"]].
Proof. split; vm_compute; reflexivity. Qed.

(** * /repo/tests/test_mapry.py *)
Definition needs (h : heap) (a : addr) : option bool * option bool :=
  (needs_type h (KPrim PPath) 10 a, needs_type h (KPrim PDate) 10 a).
Example needs_type_tests :
  let found := (Some true, Some false) in
  needs [OPrim PPath] 0 = found /\
  needs [OPrim PPath; OArray 0] 1 = found /\ needs [OPrim PPath; OMap 0] 1 = found /\
  needs [OPrim PPath; OClass (s_ "some_class") [0]] 1 = found /\ needs [OPrim PPath; OEmbed (s_ "some_embed") [0]] 1 = found /\
  needs [OPrim PPath; OGraph [] [] [0]] 1 = found /\
  needs [OPrim PPath; OClass (s_ "some_class") [0]; OGraph [1] [] []] 2 = found /\
  needs [OPrim PPath; OEmbed (s_ "some_embed") [0]; OGraph [] [1] []] 2 = found.
Proof. vm_compute; repeat split; reflexivity. Qed.

(** The types of the properties are given, and the result are addresses. *)
Example references_tests :
  let cls := s_ "some_class" in
  references [OClass (s_ "another_cls") []; OEmbed (s_ "some_embed") [0]; OPrim PPath; OClass cls [2; 3; 1]] 10 [2; 3; 1] = Some [0; 3] /\
  references [OClass cls [0]] 10 [0] = Some [0] /\
  references [OArray 1; OClass cls [0]] 10 [0] = Some [1] /\
  references [OMap 1; OClass cls [0]] 10 [0] = Some [1].
Proof. vm_compute; repeat split; reflexivity. Qed.

Definition one (name : string) (t : ty) (ref : string) : list prop := [Prop_ (s_ (ref ++ "/" ++ name)) (s_ name) t [] (s_ name) false].
Example iterate_over_types_test :
  iterate_over_types
    (Graph [] [] (s_ "G#")
       [Cls (s_ "some_class") [] [] (s_ "C#") None (one "some_class_property" (TPath None) "C#")]
       [Embed (s_ "some_embed") [] (s_ "E#") (one "some_embed_property" (TArray (TPath None) None None) "E#")]
       (one "some_graph_property" (TPath None) "G#")) =
  [(TPath None, s_ "C#/some_class_property"); (TArray (TPath None) None None, s_ "E#/some_embed_property");
   (TPath None, s_ "E#/some_embed_property/values"); (TPath None, s_ "G#/some_graph_property")].
Proof. vm_compute; reflexivity. Qed.

(** * go/generate/fromjsonable_test.py and tojsonable_test.py, the generated tests of the durations *)

(** [time.Duration.String] of Go *)
Definition go_fraction (places : nat) (n : Z) : str :=
  let digits := rstrip0 (pad places (Z.to_N n)) in
  match digits with [] => [] | _ => s_ "." ++ digits end.
Definition go_duration_string (d : Z) : str :=
  let u := Z.abs d in
  let sign := if (d <? 0)%Z then s_ "-" else [] in
  if (u =? 0)%Z then s_ "0s"
  else if (u <? 1000)%Z then sign ++ dec_Z u ++ s_ "ns"
  else if (u <? 1000000)%Z then sign ++ dec_Z (u / 1000) ++ go_fraction 3 (u mod 1000) ++ [181%N; 115%N]
  else if (u <? 1000000000)%Z then sign ++ dec_Z (u / 1000000) ++ go_fraction 6 (u mod 1000000) ++ s_ "ms"
  else
    let s := (u / 1000000000)%Z in
    sign ++ (if (s <? 3600)%Z then [] else dec_Z (s / 3600) ++ s_ "h") ++
    (if (s <? 60)%Z then [] else dec_Z (s / 60 mod 60) ++ s_ "m") ++
    dec_Z (s mod 60) ++ go_fraction 9 (u mod 1000000000) ++ s_ "s".
Definition printed (text : string) : option str := option_map go_duration_string (go_dur_from (s_ text)).
Example go_duration_from_tests :
  map printed ["some wrong text"; "P1Y"; "P1M"; "P1W"; "P1D"; "PT1.1H2.2M3.3S"; "PT0.000000001S"; "PT1.000S";
               "P1.1Y2.1M3.1W4.1DT5.1H6.1M7.1S"; "-P1D"; "P300Y"]%string =
  [None; Some (s_ "8765h49m12s"); Some (s_ "730h29m6s"); Some (s_ "168h0m0s"); Some (s_ "24h0m0s"); Some (s_ "1h8m15.3s");
   Some (s_ "1ns"); Some (s_ "1s"); Some (s_ "11800h49m26.900000007s"); Some (s_ "-24h0m0s"); None].
Proof. vm_compute; reflexivity. Qed.

Definition ns : Z := 1.
Definition second : Z := 1000000000.
Definition minute : Z := 60 * second.
Definition hour : Z := 60 * minute.
Example go_duration_to_tests :
  map go_dur_to [365 * 24 * hour; -365 * 24 * hour; hour + 2 * minute + 3 * second;
                 24 * hour + 2 * hour + 3 * minute + 4 * second; second + ns; second + 1000 * ns; ns]%Z =
  map s_ ["P365D"; "-P365D"; "PT1H2M3S"; "P1DT2H3M4S"; "PT1.000000001S"; "PT1.000001S"; "PT0.000000001S"]%string.
Proof. vm_compute; reflexivity. Qed.
