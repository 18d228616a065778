(** C22, C23: identifier conversions and plurals. *)
From Verif Require Import Base M_Naming P_Naming.
From Coq Require Import String Ascii List NArith Bool.
Import ListNotations.

(** Property names accepted by the schema (and without the newline that
    Python's [$] tolerates): the attribute conversion always works; the camel
    case conversions succeed and give C-like identifiers exactly when the name
    does not contain a doubled underscore.
    Partial: C22 claims success for *all* accepted names; see the refutations. *)
Theorem C22_property_conversions_partial : forall s,
  property_re s = true -> ~ In 10%N s ->
  (exists r, as_attribute s = Ok r /\ starts is_lower r /\ (forall x, In x r -> is_word x = true)) /\
  ((exists a b, s = a ++ [95; 95]%N ++ b) ->
     camel_case s = Raise IndexError /\ ucamel_case s = Raise IndexError) /\
  (~ (exists a b, s = a ++ [95; 95]%N ++ b) ->
     (exists r, camel_case s = Ok r /\ starts is_lower r /\ (forall x, In x r -> is_alnum x = true)) /\
     (exists r, ucamel_case s = Ok r /\ starts is_upper r /\ (forall x, In x r -> is_alnum x = true))).
Proof. exact conversions_property. Qed.

(** The same for class names and the variable / composite conversions. *)
Theorem C22_class_conversions_partial : forall s,
  class_name_re s = true -> ~ In 10%N s ->
  (exists r, as_variable s = Ok r /\ starts is_lower r /\ (forall x, In x r -> is_word x = true)) /\
  ((exists a b, s = a ++ [95; 95]%N ++ b) -> as_composite s = Raise IndexError) /\
  (~ (exists a b, s = a ++ [95; 95]%N ++ b) ->
     exists r, as_composite s = Ok r /\ starts is_upper r /\ (forall x, In x r -> is_alnum x = true)).
Proof. exact conversions_class. Qed.

(** Refutation of totality: [a__b] is an accepted property name on which both
    camel-case conversions raise IndexError. *)
Theorem C22_double_underscore_refuted : exists s,
  property_re s = true /\ ~ In 10%N s /\
  camel_case s = Raise IndexError /\ ucamel_case s = Raise IndexError.
Proof.
  exists (s_ "a__b"). split; [reflexivity|]. split; [|split; reflexivity].
  simpl. intuition discriminate.
Qed.

(** Refutation: a name with a trailing newline is accepted and the attribute
    derived from it is not an identifier. *)
Theorem C22_trailing_newline_refuted : exists s r x,
  property_re s = true /\ as_attribute s = Ok r /\ In x r /\ is_word x = false.
Proof.
  exists (s_ "ab" ++ [10%N]), (s_ "ab" ++ [10%N]), 10%N.
  repeat split; simpl; auto.
Qed.

(** Refutation: graph (and embed) names are only checked for their first
    letter; the composite name derived from an accepted name may be no identifier. *)
Theorem C22_graph_name_refuted : exists s r x,
  graph_name_re s = true /\ as_composite s = Ok r /\ In x r /\ is_word x = false.
Proof.
  exists (s_ "Some graph"), (s_ "Some graph"), 32%N.
  repeat split; simpl; auto 10.
Qed.

(** C23, regular case: the plural is the name itself (without a final y) and a
    suffix.  Partial: names whose last part is irregular are excluded. *)
Theorem C23_plural_keeps_name_partial : forall s,
  lookup (last (split_on 95%N s) []) PLURAL_TABLE = None ->
  exists suffix, In suffix [s_ "s"; s_ "es"; s_ "ies"] /\
    (plural s = s ++ suffix \/ exists t, s = t ++ s_ "y" /\ plural s = t ++ suffix).
Proof. exact plural_regular. Qed.

(** The suffix, by the last letters of the name. *)
Theorem C23_plural_suffix_partial : forall s t c,
  lookup (last (split_on 95%N s) []) PLURAL_TABLE = None -> s = t ++ [c] ->
  (c = 121%N -> (exists u v, In v (s_ "aeiou") /\ t = u ++ [v]) -> plural s = s ++ s_ "s") /\
  (c = 121%N -> (forall u v, In v (s_ "aeiou") -> t <> u ++ [v]) -> plural s = t ++ s_ "ies") /\
  (c = 120%N \/ c = 115%N -> plural s = s ++ s_ "es") /\
  (c <> 120%N -> c <> 115%N -> c <> 121%N -> plural s = s ++ s_ "s").
Proof.
  intros s t c H E. split; [|split; [|split]].
  - intros -> (u & v & Hv & ->). apply (plural_vowel_y s u v); [exact H| |exact Hv].
    rewrite E, <- app_assoc. reflexivity.
  - intros -> Hv. exact (plural_other_y s t H E Hv).
  - intros [-> | ->]; rewrite (plural_not_y s t _ H E) by discriminate; reflexivity.
  - intros H1 H2 H3. rewrite (plural_not_y s t c H E H3).
    apply N.eqb_neq in H1, H2. rewrite H1, H2. reflexivity.
Qed.

(** The registry key is the plural in lower case. *)
Theorem C23_registry_key_partial : forall s,
  class_name_re s = true ->
  lookup (last (split_on 95%N s) []) PLURAL_TABLE = None ->
  exists r, json_plural (plural s) = Ok r /\ Forall2 ascii_lowered (plural s) r.
Proof. exact plural_registry_key. Qed.

(** Refutation: the prefix is lost, the registry key cannot be formed, and two
    different classes get the same plural. *)
Theorem C23_irregular_plural_refuted : exists s,
  class_name_re s = true /\ plural s = s_ "matrices" /\
  json_plural (plural s) = Raise ViolationError.
Proof. exists (s_ "Some_matrix"). repeat split. Qed.

Theorem C23_plural_collision_refuted : exists s t,
  class_name_re s = true /\ class_name_re t = true /\ s <> t /\ plural s = plural t.
Proof.
  exists (s_ "Some_Matrix"), (s_ "Other_Matrix"). repeat split. discriminate.
Qed.

(** Non-vacuity. *)
Example C22_example :
  property_re (s_ "some_URL_property") = true /\
  camel_case (s_ "some_URL_property") = Ok (s_ "someURLProperty") /\
  ucamel_case (s_ "some_URL_property") = Ok (s_ "SomeURLProperty") /\
  as_attribute (s_ "some_URL_property") = Ok (s_ "some_url_property").
Proof. repeat split. Qed.
Example C23_example :
  class_name_re (s_ "Bounding_box") = true /\
  plural (s_ "Bounding_box") = s_ "Bounding_boxes" /\
  plural (s_ "Daisy") = s_ "Daisies" /\ plural (s_ "GoodDay") = s_ "GoodDays" /\
  json_plural (s_ "Bounding_boxes") = Ok (s_ "bounding_boxes").
Proof. repeat split. Qed.

Print Assumptions C22_property_conversions_partial.
Print Assumptions C22_class_conversions_partial.
Print Assumptions C23_plural_keeps_name_partial.
Print Assumptions C23_plural_suffix_partial.
Print Assumptions C23_registry_key_partial.
Print Assumptions C22_double_underscore_refuted.
Print Assumptions C22_trailing_newline_refuted.
Print Assumptions C22_graph_name_refuted.
Print Assumptions C23_irregular_plural_refuted.
Print Assumptions C23_plural_collision_refuted.
