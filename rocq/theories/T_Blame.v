(** C51: the errors reported by the generated parsers name the places of the document
    where something is wrong, and say what. *)
From Coq Require Import String List Arith NArith ZArith Bool Lia Floats.SpecFloat Permutation.
From Verif Require Import Base M_Naming M_Errors M_Dec M_Schema M_Num M_PyGen M_GoGen M_CppGen
  S_Conform S_Common S_PyGen S_GoGen S_CppGen S_Blame.
From Verif Require P_PyClean P_BlamePy P_BlameGo P_BlameCpp P_Refs T_PyDemo T_GoGen T_CppGen.
Import ListNotations.
Local Open Scope nat_scope.

(** ** Python *)

(** Every reported error is true: it points to a place of the document at which the
    reported expectation is not met. *)
Theorem C51_python_errors_true X S G w ref (es : errs) a es' :
  registries_distinct G -> json_wf w -> (0 < py_cap es)%Z -> py_values es = [] ->
  graph_from X S G w ref es = Ok (a, es') ->
  forall e, In e (py_values es') -> tells err_ref err_msg py_text G (py_rules X S) ref w e.
Proof.
  intros H1 H2 H3 H4 H5. exact (proj1 (P_BlamePy.graph_from_errors X S G H1 w ref es a es' H2 H3 H4 H5)).
Qed.

(** If there is room for more errors, everything wrong with the registries has been
    reported; if nothing is, then everything wrong with the document. *)
Theorem C51_python_errors_complete X S G w ref (es : errs) a es' :
  registries_distinct G -> json_wf w -> (0 < py_cap es)%Z -> py_values es = [] ->
  graph_from X S G w ref es = Ok (a, es') ->
  (Z.of_nat (length (py_values es')) < py_cap es')%Z ->
  let wrong := tells err_ref err_msg py_text G (py_rules X S) ref w in
  let wrong_registries := tells_registry err_ref err_msg py_text G (py_rules X S) ref w in
  ((exists e, wrong_registries e) -> forall e, In e (py_values es') <-> wrong_registries e) /\
  ((forall e, ~ wrong_registries e) -> forall e, In e (py_values es') <-> wrong e).
Proof.
  intros H1 H2 H3 H4 H5 Rm.
  destruct (P_BlamePy.graph_from_errors X S G H1 w ref es a es' H2 H3 H4 H5) as (T & C).
  destruct (C Rm) as (C1 & C2 & C3). cbv zeta. split.
  - intros Ex e. split; [apply (C2 Ex)|apply C1].
  - intros N e. split; [apply T|apply (C3 N)].
Qed.

(** ** Go *)

Theorem C51_go_errors_true X G order w ref cap a es' :
  visits_all order -> bounds_exact G -> fields_distinct G -> json_wf w ->
  go_graph_from X G order w ref (go_errors_new cap) = Done (a, es') ->
  forall e, In e (go_values es') -> tells gerr_ref gerr_msg go_text G (go_rules X) ref w e.
Proof.
  intros H1 H2 H3 H4 H5. exact (proj1 (P_BlameGo.graph_from_errors X G order H1 H2 H3 w ref cap a es' H4 H5)).
Qed.

(** A capacity of zero stands for no limit. *)
Theorem C51_go_errors_complete X G order w ref cap a es' :
  visits_all order -> bounds_exact G -> fields_distinct G -> json_wf w ->
  go_graph_from X G order w ref (go_errors_new cap) = Done (a, es') ->
  go_cap es' = 0%N \/ (N.of_nat (length (go_values es')) < go_cap es')%N ->
  let wrong := tells gerr_ref gerr_msg go_text G (go_rules X) ref w in
  let wrong_registries := tells_registry gerr_ref gerr_msg go_text G (go_rules X) ref w in
  ((exists e, wrong_registries e) -> forall e, In e (go_values es') <-> wrong_registries e) /\
  ((forall e, ~ wrong_registries e) -> forall e, In e (go_values es') <-> wrong e).
Proof.
  intros H1 H2 H3 H4 H5 Rm.
  destruct (P_BlameGo.graph_from_errors X G order H1 H2 H3 w ref cap a es' H4 H5) as (T & C).
  destruct (C Rm) as (C1 & C2 & C3). cbv zeta. split.
  - intros Ex e. split; [apply (C2 Ex)|apply C1].
  - intros N e. split; [apply T|apply (C3 N)].
Qed.

(** ** C++ *)

Theorem C51_cpp_errors_true X G order w ref cap a es' :
  visits_all order -> bounds_exact G -> cfields_distinct G -> json_wf w -> (0 < cap)%N ->
  cpp_graph_from X G order w ref (cpp_errors_new cap) = CDone (a, es') ->
  forall e, In e (cpp_values es') -> tells cerr_ref cerr_msg cpp_text G (cpp_rules X) ref w e.
Proof.
  intros H1 H2 H3 H4 H5 H6. exact (proj1 (P_BlameCpp.graph_from_errors X G order H1 H2 H3 w ref cap a es' H4 H5 H6)).
Qed.

Theorem C51_cpp_errors_complete X G order w ref cap a es' :
  visits_all order -> bounds_exact G -> cfields_distinct G -> json_wf w -> (0 < cap)%N ->
  cpp_graph_from X G order w ref (cpp_errors_new cap) = CDone (a, es') ->
  (N.of_nat (length (cpp_values es')) < cpp_cap es')%N ->
  let wrong := tells cerr_ref cerr_msg cpp_text G (cpp_rules X) ref w in
  let wrong_registries := tells_registry cerr_ref cerr_msg cpp_text G (cpp_rules X) ref w in
  ((exists e, wrong_registries e) -> forall e, In e (cpp_values es') <-> wrong_registries e) /\
  ((forall e, ~ wrong_registries e) -> forall e, In e (cpp_values es') <-> wrong e).
Proof.
  intros H1 H2 H3 H4 H5 H6 Rm.
  destruct (P_BlameCpp.graph_from_errors X G order H1 H2 H3 w ref cap a es' H4 H5 H6) as (T & C).
  destruct (C Rm) as (C1 & C2 & C3). cbv zeta. split.
  - intros Ex e. split; [apply (C2 Ex)|apply C1].
  - intros N e. split; [apply T|apply (C3 N)].
Qed.

(** ** Documents with errors *)

Ltac wf_json :=
  repeat match goal with
         | |- json_wf (JObj _) => apply jwf_obj; [vm_compute; repeat constructor; simpl; intuition discriminate|intros k v Hin]
         | |- json_wf (JArr _) => apply jwf_arr; intros v Hin
         | |- json_wf _ => constructor
         | H : In _ _ |- _ => cbn in H
         | H : _ \/ _ |- _ => destruct H as [H|H]
         | H : False |- _ => destruct H
         | H : (_, _) = (_, _) |- _ => injection H as <- <-
         | H : _ = ?v |- json_wf ?v => rewrite <- H
         end.

(** The identifier of the second person is wrong. *)
Definition bad_id : jval := JObj
  [(s_ "persons", JObj [(s_ "p1", JNull); (s_ "q", JBool true)]); (s_ "home", JInt 5)].
Example bad_id_wf : json_wf bad_id.
Proof. unfold bad_id. wf_json. Qed.

Example C51_python_bad_id :
  graph_from T_PyDemo.X T_PyDemo.S T_PyDemo.G bad_id (s_ "#") (py_errors_new 10) =
    Ok (None, PyErrors 10 [Err (s_ "#/persons") (MIdMismatch (s_ "p") (s_ "q"))]).
Proof. vm_compute. reflexivity. Qed.
Example C51_go_bad_id :
  go_graph_from T_GoGen.GX T_GoGen.GG T_GoGen.reversed bad_id (s_ "#") (go_errors_new 10) =
    Done (None, GoErrors 10 [GErr (s_ "#/persons") (GIdMismatch (s_ "p") (s_ "q"))]).
Proof. vm_compute. reflexivity. Qed.
Example C51_cpp_bad_id :
  cpp_graph_from T_CppGen.CX T_CppGen.CG T_CppGen.reversed bad_id (s_ "#") (cpp_errors_new 10) =
    CDone (None, CppErrors 10 [CErr (s_ "#/persons") (CIdMismatch (s_ "p") (s_ "q"))]).
Proof. vm_compute. reflexivity. Qed.
(** In terms of the specification: only the registry is wrong, and only its identifier. *)
Example C51_bad_id_only e :
  tells_registry gerr_ref gerr_msg go_text T_GoGen.GG (go_rules T_GoGen.GX) (s_ "#") bad_id e <->
  e = GErr (s_ "#/persons") (GIdMismatch (s_ "p") (s_ "q")).
Proof.
  pose proof (C51_go_errors_complete _ _ _ _ _ _ _ _ T_GoGen.reversed_ok T_GoGen.GG_bounds T_GoGen.GG_fields
    bad_id_wf C51_go_bad_id (or_intror eq_refl)) as (H & _).
  rewrite <- H.
  - cbn. split; [intros [<-|[]]; reflexivity|intros ->; auto].
  - exists (GErr (s_ "#/persons") (GIdMismatch (s_ "p") (s_ "q"))).
    exists (Registry T_GoGen.gperson (JObj [(s_ "p1", JNull); (s_ "q", JBool true)])), (BadId (s_ "p") (s_ "q")).
    split; [exact I|]. split; [|reflexivity]. split.
    + eapply wi_below; [|apply wi_here]. apply (st_registry T_GoGen.GG (go_rules T_GoGen.GX) (s_ "#") _ T_GoGen.gperson).
      * left. reflexivity.
      * reflexivity.
      * exact I.
    + cbn. eexists. split; [reflexivity|]. split; [right; left; reflexivity|]. split; [reflexivity|].
      discriminate.
Qed.

(** Several places are wrong. *)
Definition bad : jval := JObj
  [(s_ "persons", JObj
     [(s_ "p1", JObj [(s_ "name", JStr (s_ "anna"));
                      (s_ "friends", JArr [JStr (s_ "p2"); JStr (s_ "p3"); JBool true])]);
      (s_ "p2", JObj [])]);
   (s_ "home", JObj [(s_ "number", JInt 12)]);
   (s_ "since", JStr (s_ "x"));
   (s_ "zone", JStr (s_ "UTC"));
   (s_ "by_year", JObj [(s_ "1999", JBool true)])].
Example bad_wf : json_wf bad.
Proof. unfold bad. wf_json. Qed.

Definition py_bad : list perr :=
  [Err (s_ "#/persons/'p1'/friends/1") (MMissingReference (s_ "Person") (s_ "p3"));
   Err (s_ "#/persons/'p1'/friends/2") (MExpectedType (s_ "a str") JTBool);
   Err (s_ "#/persons/'p2'") (MMissingProperty (s_ "name"));
   Err (s_ "#/home/number") (MExpectedBound (s_ "<") 10 (JInt 12));
   Err (s_ "#/since") (MExpectedStrptime (s_ "%Y") (s_ "x"));
   Err (s_ "#/by_year/'1999'") (MExpectedType (s_ "a list") JTBool)].
Example C51_python_bad :
  graph_from T_PyDemo.X T_PyDemo.S T_PyDemo.G bad (s_ "#") (py_errors_new 10) = Ok (None, PyErrors 10 py_bad).
Proof. vm_compute. reflexivity. Qed.
Example C51_python_bad_all e :
  tells err_ref err_msg py_text T_PyDemo.G (py_rules T_PyDemo.X T_PyDemo.S) (s_ "#") bad e <-> In e py_bad.
Proof.
  pose proof (C51_python_errors_complete T_PyDemo.X T_PyDemo.S T_PyDemo.G bad (s_ "#") (py_errors_new 10) _ _
    T_PyDemo.registries_ok_ bad_wf eq_refl eq_refl C51_python_bad eq_refl) as (H1 & H2).
  rewrite <- H2; [reflexivity|]. intros e' He'.
  assert (He'' := proj2 (H1 (ex_intro _ e' He') e') He').
  assert (N : forall e, In e py_bad -> ~ tells_registry err_ref err_msg py_text T_PyDemo.G
    (py_rules T_PyDemo.X T_PyDemo.S) (s_ "#") bad e).
  { clear. intros e He (s & k & Hs & [_ Hk] & M). destruct s as [v|c v|ps v|t v]; try destruct Hs.
    destruct k; try (exact Hk); cbn in M.
    - cbn in He. repeat destruct He as [<-|He]; try discriminate M. destruct He.
    - cbn in He. repeat destruct He as [<-|He]; try discriminate M. destruct He. }
  exact (N e' He'' He').
Qed.

Definition cpp_bad : list cerr :=
  [CErr (s_ "#/persons/p1/friends/1") (CMissingReference (s_ "Person") (s_ "p3"));
   CErr (s_ "#/persons/p1/friends/2") (CExpectedType (s_ "a string") CTBool);
   CErr (s_ "#/persons/p2") (CMissingProperty (s_ "name"));
   CErr (s_ "#/home/number") (CExpectedBound (s_ "<") 10);
   CErr (s_ "#/since") (CExpectedFormat (s_ "%Y") (s_ "x"));
   CErr (s_ "#/by_year/1999") (CExpectedType (s_ "an array") CTBool)].
Example C51_cpp_bad : exists a,
  cpp_graph_from T_CppGen.CX T_CppGen.CG T_CppGen.in_order bad (s_ "#") (cpp_errors_new 10) =
    CDone (a, CppErrors 10 cpp_bad).
Proof. eexists. vm_compute. reflexivity. Qed.

(** Go panics at the second composite value after an error (C15), so that here only the
    properties of the graph itself are wrong. *)
Definition go_doc : jval := JObj
  [(s_ "home", JObj [(s_ "number", JFloat T_GoGen.f3)]);
   (s_ "ratio", JFloat (S754_finite true 5629499534213120 (-50)));
   (s_ "since", JStr (s_ "x"));
   (s_ "wait", JNull);
   (s_ "by_year", JObj [(s_ "1999", JArr [JStr (s_ "p1")]); (s_ "2000", JBool true)])].
Example go_doc_wf : json_wf go_doc.
Proof. unfold go_doc. wf_json. Qed.
Definition go_errs : list gerr :=
  [GErr (s_ "#/ratio") (GExpectedBound (s_ ">") 0);
   GErr (s_ "#/since") (GExpectedLayout (s_ "2006") (s_ "x"));
   GErr (s_ "#") (GMissingProperty (s_ "zone"));
   GErr (s_ "#/wait") (GExpectedType (s_ "a string") (gtype_of JNull));
   GErr (s_ "#/by_year/2000") (GExpectedType (s_ "a []interface{}") (gtype_of (JBool true)));
   GErr (s_ "#/by_year/1999/0") (GMissingReference (s_ "Person") (s_ "p1"))].
Example C51_go_doc : exists a,
  go_graph_from T_GoGen.GX T_GoGen.GG T_GoGen.reversed go_doc (s_ "#") (go_errors_new 0) =
    Done (a, GoErrors 0 go_errs).
Proof. eexists. vm_compute. reflexivity. Qed.

(** ** What the references do not tell *)

(** Keys of maps are written as they are in the references of Go and C++, so that errors
    at two places of a document may be reported at the same reference. *)
Definition nested := Graph (s_ "Nested") [] (s_ "ref") [] []
  [Prop_ (s_ "ref") (s_ "m") (TMap (TMap TBool)) [] (s_ "m") false].
Definition nested_doc : jval := JObj
  [(s_ "m", JObj [(s_ "a", JObj [(s_ "b", JNull)]); (s_ "a/b", JNull)])].
Theorem C51_go_reference_ambiguous_refuted :
  exists a e1 e2,
    go_graph_from T_GoGen.GX nested T_GoGen.in_order nested_doc (s_ "#") (go_errors_new 0) =
      Done (a, GoErrors 0 [e1; e2]) /\
    gerr_ref e1 = gerr_ref e2 /\ gerr_msg e1 <> gerr_msg e2.
Proof. do 3 eexists. split; [vm_compute; reflexivity|]. split; [reflexivity|discriminate]. Qed.
Theorem C51_cpp_reference_ambiguous_refuted :
  exists a e1 e2,
    cpp_graph_from T_CppGen.CX nested T_CppGen.in_order nested_doc (s_ "#") (cpp_errors_new 10) =
      CDone (a, CppErrors 10 [e1; e2]) /\
    cerr_ref e1 = cerr_ref e2 /\ cerr_msg e1 <> cerr_msg e2.
Proof. do 3 eexists. split; [vm_compute; reflexivity|]. split; [reflexivity|discriminate]. Qed.

(** Without slashes in the keys, a reference names one value, and one type expected for it. *)
Theorem C51_references_unambiguous_partial G L w ref r s1 s2 :
  clear_names G L -> (forall a b, r_quote L a = r_quote L b -> a = b) ->
  json_wf w -> all_keys (fun k => slash_free (r_quote L k)) w ->
  within G L ref (Whole w) r s1 -> within G L ref (Whole w) r s2 ->
  site_value s1 = site_value s2 /\
  forall t1 v1 t2 v2, s1 = Value t1 v1 -> s2 = Value t2 v2 -> t1 = t2.
Proof. intros H1 H2 H3 H4. exact (P_Refs.references_unambiguous G L H1 H2 w ref r s1 s2 H3 H4). Qed.

Ltac no_slash := unfold slash_free; vm_compute; intuition discriminate.
Example GG_clear : clear_names T_GoGen.GG (go_rules T_GoGen.GX).
Proof.
  split; [|split].
  - intros ps H. cbn in H. destruct H as [<-|[<-|[<-|[]]]];
      (split; [vm_compute; repeat constructor; simpl; intuition discriminate|]);
      intros p Hp; cbn in Hp; repeat destruct Hp as [<-|Hp]; try destruct Hp; no_slash.
  - vm_compute. repeat constructor; simpl; intuition discriminate.
  - intros c [<-|[]]. no_slash.
Qed.
Example go_doc_clear : all_keys (fun k => slash_free (r_quote (go_rules T_GoGen.GX) k)) go_doc.
Proof.
  unfold go_doc.
  repeat match goal with
         | H : _ \/ _ |- _ => destruct H as [H|H]
         | H : False |- _ => destruct H
         | H : (_, _) = (_, _) |- _ => injection H as <- <-
         | H : _ = ?v |- all_keys _ ?v => rewrite <- H; clear H
         | |- _ /\ _ => split; [no_slash|]
         | |- all_keys _ (JObj _) => let H := fresh in apply ak_obj; intros ? ? H; cbn in H
         | |- all_keys _ (JArr _) => let H := fresh in apply ak_arr; intros ? H; cbn in H
         | |- all_keys _ (JBool _) => apply ak_bool
         | |- all_keys _ (JStr _) => apply ak_str
         | |- all_keys _ (JFloat _) => apply ak_float
         | |- all_keys _ JNull => apply ak_null
         end.
Qed.

Print Assumptions C51_references_unambiguous_partial.
Print Assumptions C51_python_errors_true.
Print Assumptions C51_python_errors_complete.
Print Assumptions C51_go_errors_true.
Print Assumptions C51_go_errors_complete.
Print Assumptions C51_cpp_errors_true.
Print Assumptions C51_cpp_errors_complete.
Print Assumptions C51_go_reference_ambiguous_refuted.
Print Assumptions C51_cpp_reference_ambiguous_refuted.
