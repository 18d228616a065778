(** Theorems about what the generated Python modules import and what the generated C++
    sources include (properties C56 and C57). *)
From Coq Require Import String List Arith NArith ZArith Bool Lia Permutation.
From Verif Require Import Base M_Naming M_Schema M_TypeGraph M_Text M_Walk M_Validate M_PyImports M_CppIncludes S_TypeGraph S_Conform S_Walk S_Validate S_PyTypes S_Imports
  P_Common P_TypeGraph P_Parsed P_GoImports P_PyImports P_CppIncludes T_Text T_Validate T_EndToEnd T_GoImports T_PyTypes.
Import ListNotations.
Open Scope list_scope.

Lemma document_cpp_settings s v cpp : document_of s v -> sc_cpp s = Some cpp -> known_cpp_settings cpp.
Proof.
  intros (Hw & re_ok & ordered & ref & H) E. destruct (accepted_document _ _ _ _ _ Hw H) as (Hd & _).
  destruct (accepted_describes _ _ _ _ _ Hw H) as (_ & l & -> & HP & _ & _). rewrite E in HP.
  destruct HP as [(w & Hin & m & x & -> & Ex & HP)|(_ & X)]; [|discriminate]. injection Ex as <-. destruct HP as (_ & P1 & P2 & P3 & _).
  inversion Hw as [| | | | | |? N K]; subst. assert (Wm := K _ _ Hin). inversion Wm as [| | | | | |? Nm _]; subst.
  inversion Hd; subst. match goal with H : maybe _ "cpp" _ |- _ => specialize (H _ Hin) as (m' & Em & _ & _ & Q1 & Q2 & Q3 & _) end.
  injection Em as <-.
  assert (X : forall k t ts, member m k (a_text (one_of ts)) -> In (s_ k, JStr t) m -> In t (map s_ ts)).
  { intros k t ts (w & Hw1 & (t' & -> & Ht)) P. apply (In_lookup _ _ _ Nm) in P. rewrite (In_lookup _ _ _ Nm Hw1) in P. injection P as <-. exact Ht. }
  split; [|split]; eapply X; eassumption.
Qed.

(** * C57: the generated Python modules import what they use *)

(** The module which parses documents imports the modules which it mentions, and no other,
    for all accepted documents. *)
Theorem C57_from_jsonable v s py : document_of s v -> sc_py s = Some py ->
  exists l, py_from_imports py (sc_graph s) = Ok l /\ same_modules l (py_from_uses py (sc_graph s)).
Proof. intros Hd Es. apply from_same; [exact (document_resolved _ _ Hd)|exact (document_settings _ _ _ Hd Es)]. Qed.
Print Assumptions C57_from_jsonable.

Theorem C57_to_jsonable v s py : document_of s v -> sc_py s = Some py ->
  same_modules (py_to_imports py (sc_graph s)) (py_to_uses py (sc_graph s)).
Proof. intros Hd Es. apply to_same; first [exact (document_resolved _ _ Hd)|exact (document_settings _ _ _ Hd Es)]. Qed.
Print Assumptions C57_to_jsonable.

Theorem C57_parse v s py : document_of s v -> sc_py s = Some py ->
  same_modules (py_parse_imports py) (py_parse_module_uses py (sc_graph s)).
Proof. intros Hd Es. apply parse_same; first [exact (document_resolved _ _ Hd)|exact (document_settings _ _ _ Hd Es)]. Qed.
Print Assumptions C57_parse.

(** A shop whose Python modules need almost everything. *)
Definition python_shop : jval := with_py
  [("classes", JArr [plain_class "Article" [("id_pattern", txt "^[a-z]+$"); ("properties", obj [("image", property [("type", txt "path")])])]]);
   ("properties", obj [("zones", property [("type", txt "map"); ("values", obj [("type", txt "time_zone")])]);
                       ("rented", property [("type", txt "array"); ("values", obj [("type", txt "duration")])])])]%string.
Example C57_nontrivial : exists s py l,
  document_of s python_shop /\ sc_py s = Some py /\ py_from_imports py (sc_graph s) = Ok l /\
  l = map s_ ["collections"; "datetime"; "pathlib"; "re"; "typing"; "pytz"; "pytz.exceptions"; "some.shop"; "some.shop.parse"]%string /\
  py_to_imports py (sc_graph s) = map s_ ["collections"; "datetime"; "typing"; "some.shop"]%string /\
  (exists m, In m l /\ ~ In m (py_to_imports py (sc_graph s))).
Proof.
  destruct (schema_from_mapping (fun _ => true) true python_shop []) as [s|e] eqn:E; [|vm_compute in E; discriminate].
  exists s. assert (D : document_of s python_shop) by (split; [apply wf_parts; vm_compute; reflexivity|eauto]).
  vm_compute in E. injection E as <-. do 2 eexists. split; [exact D|]. split; [reflexivity|]. split; [vm_compute; reflexivity|].
  split; [vm_compute; reflexivity|]. split; [vm_compute; reflexivity|].
  exists (s_ "re"). split; [cbn; auto 10|]. vm_compute. intuition discriminate.
Qed.

(** * C56: the generated C++ sources include what they use *)

(** There is a value of such a type in the documents. *)
Definition occurs (g : graph) (P : ty -> Prop) : Prop := exists t ref, value_type g t ref /\ P t.

(** What the header with the types mentions is declared by what it includes, except for
    std::string if it is only the key of a map; and nothing else is included. *)
Theorem C56_types_header_partial v s cpp : document_of s v -> sc_cpp s = Some cpp ->
  let g := sc_graph s in
  exists l, types_includes cpp g = Ok l /\
    (forall e, In e (types_entities cpp g) -> e <> s_ "std::string" -> declared_in l e) /\
    (In (s_ "std::string") (types_entities cpp g) ->
       occurs g (fun t => exists p, t = TStr p) \/ g_classes g <> [] \/
       (cc_datetime_library cpp = s_ "ctime" /\ occurs g (fun t => t = TTimeZone)) ->
       declared_in l (s_ "std::string")) /\
    (forall h, In h l -> used_header (types_entities cpp g) h).
Proof.
  intros Hd Es g. assert (HR := document_resolved _ _ Hd). assert (HS := document_cpp_settings _ _ _ Hd Es).
  destruct (types_ok cpp g HR HS) as (l & E & HL). exists l. split; [exact E|]. split; [|split].
  - intros e He Hne. destruct (types_declared cpp g HS l HL e He) as [D|(X & _)]; [exact D|contradiction].
  - intros _ H. exists (s_ "string"). split; [|table]. apply HL. destruct H as [(t & ref & Hv & p & ->)|[H|(C & t & ref & Hv & ->)]].
    + right; left. split; [reflexivity|]. left. now exists (TStr p), ref.
    + right; left. split; [reflexivity|now right].
    + do 3 right. left. right. left. split; [reflexivity|]. split; [unfold ctime; rewrite C; apply str_eqb_refl|now exists TTimeZone, ref].
  - intros h Hh. now apply types_used, HL.
Qed.
Print Assumptions C56_types_header_partial.

(** The header with the parsing and serialization functions. *)
Theorem C56_jsoncpp_header v s cpp : document_of s v -> sc_cpp s = Some cpp ->
  exists l, jsoncpp_header_sees cpp (sc_graph s) = Ok l /\
    forall e, In e (jsoncpp_header_entities (sc_graph s)) -> declared_in l e.
Proof. intros Hd Es. apply header_declared; [exact (document_resolved _ _ Hd)|exact (document_cpp_settings _ _ _ Hd Es)]. Qed.
Print Assumptions C56_jsoncpp_header.

(** Their implementation: only std::atol is not declared, which needs <cstdlib>. *)
Theorem C56_implementation_partial v s cpp : document_of s v -> sc_cpp s = Some cpp ->
  let g := sc_graph s in
  exists l, impl_sees cpp g = Ok l /\
    forall e, In e (impl_entities cpp g) -> ~ (e = s_ "std::atol" /\ occurs g (fun t => t = TDuration)) -> declared_in l e.
Proof.
  intros Hd Es g. assert (HR := document_resolved _ _ Hd). assert (HS := document_cpp_settings _ _ _ Hd Es).
  destruct (impl_sees_ok cpp g HR HS) as (l & lt & E & HT & HI & HJ & HO). exists l. split; [exact E|]. intros e He Hn.
  destruct (impl_declared cpp g HR HS l lt HT HI HJ HO e He) as [D|(X & t & ref & Hv & Ht)]; [exact D|].
  exfalso. apply Hn. split; [exact X|]. exists t, ref. split; [exact Hv|]. now destruct t.
Qed.
Print Assumptions C56_implementation_partial.

Definition with_cpp (l : list (string * jval)) : jval :=
  obj (([("name", txt "Shop"); ("description", txt "defines a shop.");
        ("cpp", obj [("namespace", txt "some::shop"); ("path_as", txt "boost::filesystem::path"); ("optional_as", txt "std::optional");
                     ("datetime_library", txt "date.h")])]%string) ++ l).

Lemma not_declared l e : existsb (fun he => mem (fst he) l && mem e (snd he)) declarations = false -> ~ declared_in l e.
Proof.
  intros H (h & Hh & d & Hd & He). assert (X : existsb (fun he => mem (fst he) l && mem e (snd he)) declarations = true).
  { apply existsb_exists. exists (h, d). split; [exact Hd|]. cbn [fst snd]. apply andb_true_iff. split; now apply mem_In. }
  congruence.
Qed.

(** A map without strings: its key is a std::string, but <string> is not included. *)
Definition flags : jval := with_cpp [("properties", obj [("flags", property [("type", txt "map"); ("values", obj [("type", txt "boolean")])])])]%string.
Theorem C56_map_refuted : exists v s cpp l e,
  document_of s v /\ sc_cpp s = Some cpp /\ types_includes cpp (sc_graph s) = Ok l /\
  In e (types_entities cpp (sc_graph s)) /\ ~ declared_in l e.
Proof.
  exists flags. destruct (schema_from_mapping (fun _ => true) true flags []) as [s|e] eqn:E; [|vm_compute in E; discriminate].
  exists s. assert (D : document_of s flags) by (split; [apply wf_parts; vm_compute; reflexivity|eauto]).
  vm_compute in E. injection E as <-. eexists. eexists. exists (s_ "std::string"). split; [exact D|]. split; [reflexivity|]. split; [vm_compute; reflexivity|].
  split; [apply mem_In; vm_compute; reflexivity|]. apply not_declared. vm_compute. reflexivity.
Qed.
Print Assumptions C56_map_refuted.

(** Durations are parsed with std::atol, but <cstdlib> is not included. *)
Definition lasting : jval := with_cpp [("properties", obj [("lasts", property [("type", txt "duration")])])]%string.
Theorem C56_duration_refuted : exists v s cpp l e,
  document_of s v /\ sc_cpp s = Some cpp /\ impl_sees cpp (sc_graph s) = Ok l /\
  In e (impl_entities cpp (sc_graph s)) /\ ~ declared_in l e.
Proof.
  exists lasting. destruct (schema_from_mapping (fun _ => true) true lasting []) as [s|e] eqn:E; [|vm_compute in E; discriminate].
  exists s. assert (D : document_of s lasting) by (split; [apply wf_parts; vm_compute; reflexivity|eauto]).
  vm_compute in E. injection E as <-. eexists. eexists. exists (s_ "std::atol"). split; [exact D|]. split; [reflexivity|]. split; [vm_compute; reflexivity|].
  split; [apply mem_In; vm_compute; reflexivity|]. apply not_declared. vm_compute. reflexivity.
Qed.
Print Assumptions C56_duration_refuted.

(** A shop whose C++ sources need almost everything. *)
Definition cpp_shop : jval := with_cpp
  [("classes", JArr [plain_class "Article" [("id_pattern", txt "^[a-z]+$"); ("properties", obj [("image", property [("type", txt "path"); ("optional", JBool true)])])]]);
   ("properties", obj [("zones", property [("type", txt "map"); ("values", obj [("type", txt "time_zone")])]);
                       ("rented", property [("type", txt "array"); ("values", obj [("type", txt "time")])])])]%string.
Example C56_nontrivial : exists s cpp l l',
  document_of s cpp_shop /\ sc_cpp s = Some cpp /\ types_includes cpp (sc_graph s) = Ok l /\ impl_sees cpp (sc_graph s) = Ok l' /\
  l = map s_ ["boost/filesystem/path.hpp"; "date/date.h"; "date/tz.h"; "chrono"; "map"; "memory"; "optional"; "string"; "vector"]%string /\
  In (s_ "regex") l' /\ ~ In (s_ "iomanip") l' /\
  (forall e, In e (types_entities cpp (sc_graph s)) -> declared_in l e) /\ (forall e, In e (impl_entities cpp (sc_graph s)) -> declared_in l' e).
Proof.
  destruct (schema_from_mapping (fun _ => true) true cpp_shop []) as [s|e] eqn:E; [|vm_compute in E; discriminate].
  exists s. assert (D : document_of s cpp_shop) by (split; [apply wf_parts; vm_compute; reflexivity|eauto]).
  vm_compute in E. injection E as <-. do 3 eexists. split; [exact D|]. split; [reflexivity|]. split; [vm_compute; reflexivity|].
  split; [vm_compute; reflexivity|]. split; [vm_compute; reflexivity|].
  split; [apply mem_In; vm_compute; reflexivity|]. split; [rewrite <- mem_In; vm_compute; discriminate|].
  assert (X : forall l es, forallb (fun e => existsb (fun h => existsb (fun he => str_eqb h (fst he) && mem e (snd he)) declarations) l) es = true ->
    forall e, In e es -> declared_in l e).
  { intros l es H e He. rewrite forallb_forall in H. apply H, existsb_exists in He as (h & Hh & Hd). exists h. split; [exact Hh|now apply declares_b]. }
  split; apply X; vm_compute; reflexivity.
Qed.
