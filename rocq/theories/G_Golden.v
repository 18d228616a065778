(** The model against the records of the project.

    The files under /repo/test_cases record, for each schema, the code which is generated in
    Python, Go and C++, and the inputs, the errors and the outputs of runs of that code.  The
    checks below compute what the model says about every one of the recorded schemas and
    inputs, and compare it with the record.

    These are tests of the model and no proofs: they tie the definitions the theorems are about
    to what the real code did.  No theorem depends on them. *)
From Coq Require Import String List Bool Arith NArith ZArith.
From Verif Require Import Base M_Naming M_Schema M_PyGen M_GoImports M_PyImports M_CppIncludes M_PyTypes
  S_Scope M_Scope M_PyScope M_GoScope M_CppScope G_Runs G_Cases G_GoText G_GoSources G_CppText G_CppSources G_PyText G_PySources.
Import ListNotations.
Local Open Scope nat_scope.

(** * The runs: the lines of the error file in their order, or the value that is written back *)

Definition runs (agrees : tables -> jval -> jval -> expected -> bool)
                (cases : list (tables * jval * jval * expected)) : list bool :=
  map (fun c => let '(t, doc, value, e) := c in agrees t doc value e) cases.

(** /repo/tests/py/live_test_generate_jsonable.py *)
Example py_recorded : length py_cases = 119 /\ forallb id (runs py_agrees py_cases) = true.
Proof. split; vm_compute; reflexivity. Qed.

(** /repo/tests/go/live_test_generate_jsonable.py *)
Example go_recorded : length go_cases = 119 /\ forallb id (runs go_agrees go_cases) = true.
Proof. split; vm_compute; reflexivity. Qed.

(** /repo/tests/cpp/live_test_generate_jsoncpp.py *)
Example cpp_recorded : length cpp_cases = 133 /\ forallb id (runs cpp_agrees cpp_cases) = true.
Proof. split; vm_compute; reflexivity. Qed.

(** The comparison can fail: against the record of the next case almost no run agrees. *)
Definition shifted {A B C D} (cases : list (A * B * C * D)) : list (A * B * C * D) :=
  map (fun ab => let '((t, doc, value, _), (_, _, _, e)) := ab in (t, doc, value, e))
      (combine cases (tl cases ++ firstn 1 cases)).
Definition agreeing (l : list bool) : nat := length (filter id l).
Example shifted_records :
  agreeing (runs py_agrees (shifted py_cases)) <= 1 /\
  agreeing (runs go_agrees (shifted go_cases)) <= 1 /\
  agreeing (runs cpp_agrees (shifted cpp_cases)) <= 1.
Proof. repeat split; apply Nat.leb_le; vm_compute; reflexivity. Qed.

(** * The sources *)

Definition strs_eqb (a b : list str) : bool := if list_eq_dec (list_eq_dec N.eq_dec) a b then true else false.
Definition res_eqb (a : res (list str)) (b : list str) : bool := match a with Ok a => strs_eqb a b | Raise _ => false end.
Definition within (a b : list str) : bool := forallb (fun x => mem x b) a.
Fixpoint pairwise {A B} (f : A -> B -> bool) (a : list A) (b : list B) : bool :=
  match a, b with
  | [], [] => true
  | x :: a', y :: b' => f x y && pairwise f a' b'
  | _, _ => false
  end.
(** The parameters of a function, and the names in its body *)
Definition same_names (f : function) (r : list str * list str) : bool :=
  let used := flat_map assigned (fn_body f) ++ flat_map mentioned (fn_body f) in
  strs_eqb (map snd (fn_params f)) (fst r) && within used (snd r) && within (snd r) used.

(** Go: the text of the functions and structures (C60), the variables of the patterns (C30), the
    names (C58) and the imports (C48) *)
Definition go_source_agrees (c : jval * go_source) : bool :=
  match parse_schema (fst c) with
  | Raise _ => false
  | Ok sc =>
      let g := sc_graph sc in
      let s := snd c in
      strs_eqb (go_from_text g) (gs_from s) && strs_eqb (go_to_text g) (gs_to s) &&
      strs_eqb (go_types_text g) (gs_types s) && strs_eqb (go_regex_text g) (gs_regexes s) &&
      pairwise same_names (go_parsers g) (gs_from_names s) && pairwise same_names (go_serializers g) (gs_to_names s) &&
      strs_eqb (import_declarations (from_jsonable_imports g)) (gs_from_imports s) &&
      strs_eqb (import_declarations (to_jsonable_imports g)) (gs_to_imports s) &&
      strs_eqb (import_declarations (types_imports g)) (gs_types_imports s) &&
      strs_eqb (import_declarations (from_jsonable_test_imports g)) (gs_from_test_imports s) &&
      strs_eqb (import_declarations (to_jsonable_test_imports g)) (gs_to_test_imports s) &&
      strs_eqb (import_declarations parse_imports) (gs_parse_imports s)
  end.
(** /repo/tests/go/test_generate.py *)
Example go_sources_recorded : length go_sources = 52 /\ forallb go_source_agrees go_sources = true.
Proof. split; vm_compute; reflexivity. Qed.

(** C++: the text of the functions and structures (C62), the names (C58) and the includes (C56) *)
Definition cpp_source_agrees (c : jval * cpp_recorded_source) : bool :=
  match parse_schema (fst c) with
  | Raise _ => false
  | Ok sc =>
      match sc_cpp sc with
      | None => false
      | Some cpp =>
          let g := sc_graph sc in
          let s := snd c in
          strs_eqb (cpp_impl_text cpp g) (rs_functions s) && strs_eqb (cpp_types_text cpp g) (rs_types s) &&
          strs_eqb (cpp_header_text cpp g) (rs_declarations s) &&
          pairwise same_names (flat_map (fun x => match snd x with Some f => [f] | None => [] end) (cpp_items cpp g)) (rs_names s) &&
          res_eqb (types_includes cpp g) (rs_types_includes s) && res_eqb (jsoncpp_header_includes cpp g) (rs_header_includes s) &&
          res_eqb (impl_includes cpp g) (rs_impl_includes s) && strs_eqb parse_header_includes (rs_parse_includes s)
      end
  end.
(** /repo/tests/cpp/test_generate.py *)
Example cpp_sources_recorded : length cpp_sources = 60 /\ forallb cpp_source_agrees cpp_sources = true.
Proof. split; vm_compute; reflexivity. Qed.

(** Python: the classes (C54, C55), the imports (C57), and the names in the functions (C58).  Of the
    names which are not assigned the model lists more than there are. *)
Definition py_function_agrees (f : str * function) (r : recorded_function) : bool :=
  let '(name, params, stored, loaded) := r in
  let declared := flat_map assigned (fn_body (snd f)) in
  str_eqb (fst f) name && strs_eqb (map snd (fn_params (snd f))) params &&
  within stored declared && within declared (s_ "err" :: stored) && within loaded (flat_map mentioned (fn_body (snd f))).
Definition py_source_agrees (c : jval * py_recorded_source) : bool :=
  match parse_schema (fst c) with
  | Raise _ => false
  | Ok sc =>
      match sc_py sc with
      | None => false
      | Some py =>
          let g := sc_graph sc in
          let s := snd c in
          res_eqb (py_types_text py g) (ps_types s) &&
          res_eqb (do l <- py_types_imports py g; Ok (import_declarations l)) (ps_types_imports s) &&
          res_eqb (py_from_imports py g) (ps_from_imports s) && strs_eqb (py_to_imports py g) (ps_to_imports s) &&
          strs_eqb (py_parse_imports py) (ps_parse_imports s) &&
          pairwise py_function_agrees (combine (without_duration (py_from_defined g)) (py_parsers py g)) (ps_from s) &&
          pairwise py_function_agrees (combine (without_duration (py_to_defined g)) (py_serializers py g)) (ps_to s) &&
          pairwise py_function_agrees (combine (without_duration (py_parse_defined g)) (py_placeholders py g)) (ps_parse s)
      end
  end.
(** /repo/tests/py/test_generate.py *)
Example py_sources_recorded : length py_sources = 54 /\ forallb py_source_agrees py_sources = true.
Proof. split; vm_compute; reflexivity. Qed.

(** Again, the comparison can fail; a few schemas next to each other do not differ in the generated code. *)
Definition shifted_sources {A B} (l : list (A * B)) : list (A * B) := combine (map fst l) (tl (map snd l) ++ firstn 1 (map snd l)).
Example shifted_sources_disagree :
  agreeing (map go_source_agrees (shifted_sources go_sources)) <= 2 /\
  agreeing (map cpp_source_agrees (shifted_sources cpp_sources)) <= 2 /\
  agreeing (map py_source_agrees (shifted_sources py_sources)) <= 2.
Proof. repeat split; apply Nat.leb_le; vm_compute; reflexivity. Qed.
