(** A concrete schema meeting the hypotheses of C02-C10, and the cases in which the
    generated Python code violates a property. *)
From Verif Require Import Base M_Naming M_Errors M_Dec M_Schema M_PyGen S_Conform S_PyGen S_PySer
  P_PyRound T_PyGen.
From Coq Require Import String Ascii List Arith NArith ZArith Bool Lia Floats.SpecFloat.
Import ListNotations.

(** ** A concrete schema: the hypotheses are satisfiable *)

Definition no_bounds := Bounds None false None false.
Definition prop_ (n : str) (t : ty) (o : bool) := Prop_ (s_ "ref") n t [] n o.
(** The literals of [x_re_match] are matched as prefixes. *)
Fixpoint prefix (p s : str) : bool :=
  match p, s with
  | [], _ => true
  | a :: p', b :: s' => N.eqb a b && prefix p' s'
  | _, _ => false
  end.
Definition X : ext := Ext prefix
  (fun _ s => if str_eqb s (s_ "2020") then Some (Dt 2020 1 1 0 0 0 0 None) else None)
  (fun _ _ => s_ "2020") (fun s => s) (fun s => Some s) (fun s => s_ "'" ++ s ++ s_ "'")
  (fun s => if str_eqb s (s_ "PT1S") then Some 1000000%Z else None) (fun _ => s_ "PT1S").
Definition S := PySettings true true.
Definition person := Cls (s_ "Person") (s_ "Persons") [] (s_ "ref") (Some (s_ "p"))
  [prop_ (s_ "name") (TStr (Some (s_ "a"))) false;
   prop_ (s_ "friends") (TArray (TClass (s_ "Person")) None (Some 3%Z)) true].
Definition address := Embed (s_ "Address") [] (s_ "ref")
  [prop_ (s_ "number") (TInt (Bounds (Some 0%Z) false (Some 10%Z) true)) false;
   prop_ (s_ "owner") (TClass (s_ "Person")) true].
Definition G := Graph (s_ "Demo") [] (s_ "ref") [person] [address]
  [prop_ (s_ "home") (TEmbed (s_ "Address")) false;
   prop_ (s_ "ratio") (TFloat (Bounds (Some 0%Z) true None false)) true;
   prop_ (s_ "since") (TDate (s_ "%Y")) true;
   prop_ (s_ "by_year") (TMap (TArray (TClass (s_ "Person")) None None)) true].

Definition l : list (str * jval) :=
  [(s_ "persons", JObj
     [(s_ "p1", JObj [(s_ "name", JStr (s_ "anna"));
                      (s_ "friends", JArr [JStr (s_ "p2"); JStr (s_ "p1")])]);
      (s_ "p2", JObj [(s_ "name", JStr (s_ "abe"))])]);
   (s_ "home", JObj [(s_ "number", JInt 3); (s_ "owner", JStr (s_ "p2"))]);
   (s_ "ratio", JInt 5);
   (s_ "since", JStr (s_ "2020"));
   (s_ "by_year", JObj [(s_ "1999", JArr [JStr (s_ "p2")])])].

Definition es0 : errs := py_errors_new 10.
Definition pg : pygraph :=
  PyGraph
    [(s_ "home", PVEmbed (s_ "Address") [(s_ "number", PVInt 3); (s_ "owner", PVRef 1)]);
     (s_ "ratio", PVFloat (S754_finite false 5629499534213120 (-50)));
     (s_ "since", PVDate (Dt 2020 1 1 0 0 0 0 None));
     (s_ "by_year", PVDict [(s_ "1999", PVList [PVRef 1])])]
    [(s_ "persons", [(s_ "p1", 0); (s_ "p2", 1)])]
    [Instance (s_ "Person") (s_ "p1") [(s_ "name", PVStr (s_ "anna")); (s_ "friends", PVList [PVRef 1; PVRef 0])];
     Instance (s_ "Person") (s_ "p2") [(s_ "name", PVStr (s_ "abe")); (s_ "friends", PVNone)]].

Example parsed : graph_from X S G (JObj l) (s_ "#") es0 = Ok (Some pg, es0).
Proof. vm_compute. reflexivity. Qed.

Ltac cases :=
  repeat match goal with
         | H : _ \/ _ |- _ => destruct H
         | H : False |- _ => destruct H
         | H : In _ _ |- _ => cbn in H
         end.

Example attrs_ok : attrs_distinct G.
Proof.
  intros ps H. cbn in H. destruct H as [<-|[<-|[<-|[]]]]; vm_compute;
    repeat constructor; simpl; intuition discriminate.
Qed.
Example registries_ok_ : registries_distinct G.
Proof. split; [|split]; vm_compute; repeat constructor; simpl; intuition discriminate. Qed.
Example wf : json_wf (JObj l).
Proof.
  unfold l.
  repeat match goal with
         | |- json_wf (JObj _) => apply jwf_obj; [vm_compute; repeat constructor; simpl; intuition discriminate|intros k v Hin]
         | |- json_wf (JArr _) => apply jwf_arr; intros v Hin
         | |- json_wf _ => constructor
         | H : In _ (_ :: _) |- _ => destruct H as [H|H]; [(injection H as <- <-) || subst|]
         | H : In _ [] |- _ => destruct H
         end.
Qed.
Example ints_small : all_ints (fun z => (Z.abs z < 2 ^ 53)%Z) (JObj l).
Proof.
  unfold l.
  repeat match goal with
         | |- all_ints _ (JObj _) => apply ints_obj; intros k v Hin
         | |- all_ints _ (JArr _) => apply ints_arr; intros v Hin
         | |- all_ints _ (JInt _) => apply ints_int; reflexivity
         | |- all_ints _ _ => constructor
         | H : In _ (_ :: _) |- _ => destruct H as [H|H]; [(injection H as <- <-) || subst|]
         | H : In _ [] |- _ => destruct H
         end.
Qed.
Example conforming : graph_conforms G (py_leaf X S) (py_id_ok X) py_key (JObj l).
Proof.
  exact (proj2 (C03_python_parse_only_conforming X S G (JObj l) (s_ "#") es0 pg es0 registries_ok_ wf eq_refl eq_refl parsed)).
Qed.
Example resolved_ : resolved G.
Proof.
  intros ps p H1 H2. cbn in H1. destruct H1 as [<-|[<-|[<-|[]]]]; cbn in H2;
    repeat (destruct H2 as [<-|H2]; [vm_compute; first [exact I|discriminate]|]); destruct H2.
Qed.
Example messages : schema_messages_ok G.
Proof.
  intros ps p H1 H2. cbn in H1. destruct H1 as [<-|[<-|[<-|[]]]]; cbn in H2;
    repeat (destruct H2 as [<-|H2]; [vm_compute; first [exact I|reflexivity]|]); destruct H2.
Qed.
Example lower : lower_names G.
Proof.
  split.
  - intros c p [<-|[]] H; cbn in H. repeat (destruct H as [<-|H]; [reflexivity|]). destruct H.
  - intros c p [<-|[]] H; cbn in H. repeat (destruct H as [<-|H]; [reflexivity|]). destruct H.
Qed.
Example json_ok : json_distinct G.
Proof.
  split; [|split].
  - intros c [<-|[]]; vm_compute; repeat constructor; simpl; intuition discriminate.
  - intros c [<-|[]]; vm_compute; repeat constructor; simpl; intuition discriminate.
  - vm_compute; repeat constructor; simpl; intuition discriminate.
Qed.
(** The parsed graph satisfies the schema, and its values survive being written
    (hypothesis of C09). *)
Example strict : graph_sat X G (py_scalar_strict X S) pg.
Proof.
  exact (proj2 (C03_python_parse_sound_exact_partial X S G (JObj l) (s_ "#") es0 pg es0 attrs_ok registries_ok_ wf
    ints_small eq_refl eq_refl parsed)).
Qed.
Example canonical : graph_sat X G (py_canon X S) pg.
Proof.
  eapply graph_sat_mono; [|exact strict]. intros t x.
  destruct t; cbn [py_scalar_strict py_scalar py_canon]; auto.
  - intros (s & H & ->). exists s. split; [exact H|]. split; reflexivity.
  - intros (s & d & H & ->). unfold X, x_strptime in H. destruct (str_eqb s (s_ "2020")); [|discriminate H]. injection H as <-.
    do 2 eexists. split; [reflexivity|]. split; reflexivity.
  - intros (s & d & H & ->). unfold X, x_strptime in H. destruct (str_eqb s (s_ "2020")); [|discriminate H]. injection H as <-.
    do 2 eexists. split; [reflexivity|]. split; reflexivity.
  - intros (s & d & H & ->). unfold X, x_strptime in H. destruct (str_eqb s (s_ "2020")); [|discriminate H]. injection H as <-.
    eexists. split; reflexivity.
  - intros (s & z & H & ->). exists z. split; reflexivity.
  - intros (s & d & H & ->). unfold X, x_dur_from in H. destruct (str_eqb s (s_ "PT1S")); [|discriminate H]. injection H as <-.
    eexists. split; reflexivity.
Qed.
Example typed : graph_typed S G pg.
Proof. exact (proj1 (canon_typed X S G pg canonical)). Qed.
(** An inconsistent registry. *)
Example bad_registry : let pg' := PyGraph (pg_attrs pg) [(s_ "persons", [(s_ "p1", 1)])] (pg_heap pg) in
  inconsistent G pg' /\ serialize_graph X S G pg' = Raise ValueError.
Proof.
  cbn zeta. split; [|vm_compute; reflexivity].
  exists person, [(s_ "p1", 1)], (s_ "p1"), 1. eexists. split; [left; reflexivity|]. split; [reflexivity|].
  split; [left; reflexivity|]. split; [reflexivity|]. cbn. discriminate.
Qed.
(** Errors are reported, and truncated by a smaller capacity. *)
Definition bad : jval := JObj
  [(s_ "persons", JObj [(s_ "p1", JObj [(s_ "name", JStr (s_ "bob")); (s_ "friends", JArr [JStr (s_ "p9")])])]);
   (s_ "home", JObj [(s_ "number", JInt 10)])].
Example bad_errors :
  graph_from X S G bad (s_ "#") (py_errors_new 10) =
    Ok (None, PyErrors 10
      [Err (s_ "#/persons/'p1'/name") (MExpectedMatch (s_ "a") (s_ "bob"));
       Err (s_ "#/persons/'p1'/friends/0") (MMissingReference (s_ "Person") (s_ "p9"));
       Err (s_ "#/home/number") (MExpectedBound (s_ "<") 10 (JInt 10))]) /\
  graph_from X S G bad (s_ "#") (py_errors_new 2) =
    Ok (None, PyErrors 2
      [Err (s_ "#/persons/'p1'/name") (MExpectedMatch (s_ "a") (s_ "bob"));
       Err (s_ "#/persons/'p1'/friends/0") (MMissingReference (s_ "Person") (s_ "p9"))]).
Proof. split; vm_compute; reflexivity. Qed.
(** An unknown member, deep inside. *)
Example unknown_member : forall x,
  graph_agree G l (upsert (s_ "home")
    (JObj [(s_ "number", JInt 3); (s_ "unknown", x); (s_ "owner", JStr (s_ "p2"))]) l).
Proof.
  intros x. split.
  - intros c [<-|[]]. left. reflexivity.
  - intros p H. cbn in H. destruct H as [<-|[<-|[<-|[<-|[]]]]].
    + right. do 2 eexists. split; [reflexivity|]. split; [reflexivity|].
      eapply agree_embed; [reflexivity|]. intros p [<-|[<-|[]]]; right; do 2 eexists;
        (split; [reflexivity|]; split; [reflexivity|]; apply agree_same).
    + right. do 2 eexists. split; [reflexivity|]. split; [reflexivity|]. apply agree_same.
    + right. do 2 eexists. split; [reflexivity|]. split; [reflexivity|]. apply agree_same.
    + right. do 2 eexists. split; [reflexivity|]. split; [reflexivity|]. apply agree_same.
Qed.

(** ** Refutations: where the generated code violates the property *)

(** A float property with an exclusive minimum: the bound is checked on the JSON
  integer, the stored float is rounded and equals the minimum. *)
Definition G_rounding := Graph (s_ "Demo") [] (s_ "ref") [] []
[prop_ (s_ "x") (TFloat (Bounds (Some (2 ^ 53)%Z) true None false)) false].
Theorem C03_python_float_rounding_refuted :
exists X S v pg, json_wf v /\
  graph_from X S G_rounding v (s_ "#") (py_errors_new 1) = Ok (Some pg, py_errors_new 1) /\
  attrs_distinct G_rounding /\ registries_distinct G_rounding /\
  ~ graph_sat X G_rounding (py_scalar_strict X S) pg.
Proof.
exists X, S, (JObj [(s_ "x", JInt (2 ^ 53 + 1))]). eexists.
split; [|split; [vm_compute; reflexivity|]].
- apply jwf_obj; [vm_compute; repeat constructor; simpl; intuition discriminate|].
  intros k v [[= <- <-]|[]]. constructor.
- split; [|split].
  + intros ps [<-|[]]. vm_compute. repeat constructor; simpl; intuition discriminate.
  + split; [|split]; vm_compute; repeat constructor; simpl; intuition discriminate.
  + intros ([_ H] & _). destruct (H _ (or_introl eq_refl)) as (x & Hx & [[Hn _]|Hs]).
    * vm_compute in Hx. injection Hx as <-. discriminate Hn.
    * vm_compute in Hx. injection Hx as <-. inversion Hs as [? ? _ Hf| | | |]; subst.
      destruct Hf as (f & [= <-] & [Hm _]). cbn in Hm. destruct (Hm _ eq_refl) as [E|[E _]]; discriminate E.
Qed.

Definition G_class := Graph (s_ "Demo") [] (s_ "ref")
[Cls (s_ "Person") (s_ "Persons") [] (s_ "ref") None []] [] [].
Definition G_one (t : ty) := Graph (s_ "Demo") [] (s_ "ref") [] [] [prop_ (s_ "x") t false].

(** A registry given as null. *)
Theorem C08_python_null_registry_refuted :
exists X S ref, graph_from X S G_class (JObj [(s_ "persons", JNull)]) ref (py_errors_new 10)
                = Raise AttributeError.
Proof. exists X, S, (s_ "#"). vm_compute. reflexivity. Qed.

(** An integer too large for a float. *)
Theorem C08_python_float_overflow_refuted :
exists X S z, graph_from X S (G_one (TFloat no_bounds)) (JObj [(s_ "x", JInt z)]) (s_ "#") (py_errors_new 10)
              = Raise OverflowError.
Proof. exists X, S, (2 ^ 1024)%Z. vm_compute. reflexivity. Qed.

(** The message about a mismatched pattern with a quantifier cannot be formatted. *)
Theorem C08_python_pattern_braces_refuted :
exists X S s, graph_from X S (G_one (TStr (Some (s_ "[a-z]{3}")))) (JObj [(s_ "x", JStr s)]) (s_ "#") (py_errors_new 10)
              = Raise IndexError.
Proof. exists X, S, (s_ "?"). vm_compute. reflexivity. Qed.

(** A property of a class whose name is not in lower case: parsed as attribute
  [name], serialized as attribute [Name]. *)
Definition G_upper := Graph (s_ "Demo") [] (s_ "ref")
[Cls (s_ "Person") (s_ "Persons") [] (s_ "ref") None [prop_ (s_ "Name") (TStr None) false]] [] [].
Theorem C09_python_upper_names_refuted :
exists X S v pg,
  graph_from X S G_upper v (s_ "#") (py_errors_new 10) = Ok (Some pg, py_errors_new 10) /\
  graph_sat X G_upper (py_canon X S) pg /\ graph_typed S G_upper pg /\ ~ inconsistent G_upper pg /\
  serialize_graph X S G_upper pg = Raise AttributeError.
Proof.
exists X, S,
  (JObj [(s_ "persons", JObj [(s_ "p", JObj [(s_ "Name", JStr (s_ "anna"))])])]). eexists.
split; [vm_compute; reflexivity|].
match goal with |- graph_sat _ _ _ ?pg /\ _ => assert (Hs : graph_sat X G_upper (py_canon X S) pg) end.
{ split; [|split].
  - split; [reflexivity|]. intros p [].
  - intros c [<-|[]]. eexists. split; [reflexivity|]. split; [repeat constructor; intros []|].
    intros id a [[= <- <-]|[]]. eexists. split; [reflexivity|]. split; reflexivity.
  - intros c reg id a i [<-|[]] E Hin Hn. cbn in E. injection E as <-. destruct Hin as [[= <- <-]|[]].
    injection Hn as <-. split; [intros q Hq; discriminate Hq|]. split; [reflexivity|].
    intros p [<-|[]]. eexists. split; [reflexivity|]. right. apply sat_scalar; [reflexivity| |discriminate].
    eexists. split; [reflexivity|]. intros q Hq; discriminate Hq. }
split; [exact Hs|]. destruct (canon_typed _ _ _ _ Hs) as [Ht Hi].
split; [exact Ht|]. split; [exact Hi|]. vm_compute. reflexivity.
Qed.

Print Assumptions C03_python_float_rounding_refuted.
Print Assumptions C08_python_null_registry_refuted.
Print Assumptions C08_python_float_overflow_refuted.
Print Assumptions C08_python_pattern_braces_refuted.
Print Assumptions C09_python_upper_names_refuted.
