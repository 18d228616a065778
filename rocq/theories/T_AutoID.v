(** C44: the automatically numbered variables of a generated function. *)
From Verif Require Import Base M_Naming M_Schema M_Dec M_Text M_PyGen M_GoGen M_AutoID P_AutoID.
From Coq Require Import String List Arith NArith ZArith Bool Lia.
Import ListNotations.
Open Scope list_scope.

(** Distinct from each other, and each different from every name without a digit
    (as are the fixed names in the templates: [value], [ref], [errors], ...). *)
Definition distinct_numbered (names : list str) : Prop :=
  NoDup names /\ forall n, In n names -> exists c, In c n /\ is_digit c = true.

Lemma body_distinct f ps : (forall p, fresh (f p)) -> distinct_numbered (body f ps).
Proof.
  intros Hf. destruct (body_fresh f ps Hf) as [Hnd Hall]. split; [exact Hnd|].
  intros n Hn. rewrite Forall_forall in Hall. destruct (Hall n Hn) as [k Hk].
  unfold digits_of in Hk. pose proof (dec_N_nonempty (N.of_nat k)) as Hne. fold (dec_nat k) in Hne.
  rewrite <- Hk in Hne. clear Hk Hn Hall Hnd. induction n as [|c n IH]; [now cbn in Hne|].
  cbn [dropwhile] in Hne. destruct (is_digit c) eqn:Ec.
  - exists c. split; [now left|exact Ec].
  - cbn [negb] in Hne. destruct (IH Hne) as (d & Hd & Ed). exists d. split; [now right|exact Ed].
Qed.

(** Python: [x_from] and [serialize_x] of any composite or graph. *)
Theorem C44_python S ps :
  distinct_numbered (py_parse_body ps) /\ distinct_numbered (py_serialize_body S ps).
Proof.
  split; apply body_distinct; intros p.
  - apply py_parse_property_fresh.
  - apply py_serialize_value_fresh.
Qed.
Print Assumptions C44_python.

(** Go *)
Theorem C44_go ps : distinct_numbered (go_parse_body ps) /\ distinct_numbered (go_serialize_body ps).
Proof.
  split; apply body_distinct; intros p.
  - apply go_parse_property_fresh.
  - apply go_serialize_value_fresh.
Qed.
Print Assumptions C44_go.

(** C++, with either library for dates. *)
Theorem C44_cpp date_h ps : distinct_numbered (cpp_parse_body date_h ps) /\ distinct_numbered (cpp_serialize_body ps).
Proof.
  split; apply body_distinct; intros p.
  - apply cpp_parse_value_fresh.
  - apply cpp_serialize_value_fresh.
Qed.
Print Assumptions C44_cpp.

(** A composite with arrays and maps at several levels. *)
Definition no_bounds := Bounds None false None false.
Definition an_int := TInt (Bounds (Some 3%Z) false None false).
Definition some_props : list prop :=
  [Prop_ (s_ "r1") (s_ "xs") (TArray (TMap TDuration) None None) (s_ "") (s_ "xs") false;
   Prop_ (s_ "r2") (s_ "ys") (TMap (TMap (TArray an_int None None))) (s_ "") (s_ "ys") true;
   Prop_ (s_ "r3") (s_ "z") (TMap (TEmbed (s_ "E"))) (s_ "") (s_ "z") true;
   Prop_ (s_ "r4") (s_ "w") an_int (s_ "") (s_ "w") true].

Example python_parse_names :
  py_parse_body some_props =
  map s_ ["value_0"; "target_1"; "i_1"; "item_1"; "target_item_1";
          "target_2"; "key_2"; "value_2"; "target_item_2";
          "value_4"; "target_5"; "key_5"; "value_5"; "target_item_5"; "target_6"; "key_6"; "value_6";
          "target_item_6"; "target_7"; "i_7"; "item_7"; "target_item_7";
          "value_9"; "target_10"; "key_10"; "value_10"; "target_item_10"; "target_11"; "value_12"]%string.
Proof. vm_compute. reflexivity. Qed.

Example go_parse_names :
  go_parse_body (skipn 2 some_props) =
  map s_ ["value0"; "ok0"; "cast1"; "ok1"; "target1"; "k1"; "item1";
          "value3"; "ok3"; "target3"; "fcast4"; "ok4"; "cast4"]%string.
Proof. vm_compute. reflexivity. Qed.

Example cpp_parse_names :
  cpp_parse_body true some_props =
  map s_ ["value_0"; "target_0"; "i_0"; "item_0"; "target_1"; "it_1"; "value_2"; "cast_2_str"; "error_2"; "cast_2";
          "value_3"; "target_3"; "it_3"; "value_4"; "target_4"; "it_4"; "value_5"; "target_5"; "i_5"; "item_5";
          "cast_6"; "ok_6"; "value_7"; "target_7"; "it_7"; "value_8"; "value_9"; "cast_9"; "ok_9"]%string.
Proof. vm_compute. reflexivity. Qed.

Example serialize_names :
  py_serialize_body (PySettings true false) some_props =
    map s_ ["target_0"; "item_0"; "target_item_0"; "target_1"; "key_1"; "value_1";
            "target_2"; "key_2"; "value_2"; "target_value_2"; "target_3"; "key_3"; "value_3"; "target_value_3";
            "target_5"; "key_5"; "value_5"]%string /\
  length (go_serialize_body some_props) = 24 /\ length (cpp_serialize_body some_props) = 18.
Proof. vm_compute. auto. Qed.

(** The serializers in C++ also have a parameter which is named after the class.
    This name can be one of the numbered ones: a class [Target_0] with a property
    which is an array. *)
Theorem C44_cpp_parameter_refuted :
  exists name p fixed,
    class_name_re name = true /\ property_re (p_name p) = true /\
    cpp_serialize_fixed name = Ok fixed /\ ~ NoDup (fixed ++ cpp_serialize_body [p]).
Proof.
  exists (s_ "Target_0"), (Prop_ (s_ "r") (s_ "xs") (TArray an_int None None) (s_ "") (s_ "xs") false),
         [s_ "target_0"; s_ "target_0_as_value"].
  split; [reflexivity|]. split; [reflexivity|]. split; [reflexivity|].
  intros H. inversion H as [|x l Hx _ E]. apply Hx. right. left. reflexivity.
Qed.
Print Assumptions C44_cpp_parameter_refuted.
