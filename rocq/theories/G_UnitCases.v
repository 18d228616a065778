(** Generated by tools/golden_units.py from /repo/tests/test_validatation.py and
    /repo/tests/cpp/test_validation.py: the schemas and the texts of their errors. *)
From Coq Require Import String List NArith ZArith Floats.SpecFloat.
From Verif Require Import Base M_Schema.
Import ListNotations.

Definition validation_cases : list (jval * list str) := [
  (* test_empty_schema *)
  ((JObj []),
   [(s_ "#: Does not follow json schema: 'name' is a required property")]);
  (* test_no_description *)
  ((JObj [((s_ "name"), (JStr (s_ "Some_graph")))]),
   [(s_ "#: Does not follow json schema: 'description' is a required property")]);
  (* test_no_additional_properties *)
  ((JObj [((s_ "name"), (JStr (s_ "Some_graph")));
  ((s_ "description"), (JStr (s_ "defines some schema.")));
  ((s_ "embedes"), (JArr [(JObj [((s_ "name"), (JStr (s_ "A")));
  ((s_ "description"), (JStr (s_ "defines A.")))])]))]),
   [(s_ "#: Does not follow json schema: Additional properties are not allowed ('embedes' was unexpected)")]);
  (* test_no_additional_property_in_nested *)
  ((JObj [((s_ "name"), (JStr (s_ "Some_graph")));
  ((s_ "description"), (JStr (s_ "defines some schema.")));
  ((s_ "embeds"), (JArr [(JObj [((s_ "name"), (JStr (s_ "A")));
  ((s_ "description"), (JStr (s_ "defines A.")));
  ((s_ "some_invalid_property"), (JInt (0)%Z))])]))]),
   [(s_ "#/embeds/0: Does not follow json schema: Additional properties are not allowed ('some_invalid_property' was unexpected)")]);
  (* test_duplicate_classes *)
  ((JObj [((s_ "name"), (JStr (s_ "Some_graph")));
  ((s_ "description"), (JStr (s_ "defines some schema.")));
  ((s_ "classes"), (JArr [(JObj [((s_ "name"), (JStr (s_ "Some_class")));
  ((s_ "description"), (JStr (s_ "defines a class.")))]); (JObj [((s_ "name"), (JStr (s_ "Some_class")));
  ((s_ "description"), (JStr (s_ "defines a class.")))])]))]),
   [(s_ "#/classes/1/name: Duplicate names: 'Some_class'")]);
  (* test_duplicate_embeds *)
  ((JObj [((s_ "name"), (JStr (s_ "Some_graph")));
  ((s_ "description"), (JStr (s_ "defines some schema.")));
  ((s_ "embeds"), (JArr [(JObj [((s_ "name"), (JStr (s_ "A")));
  ((s_ "description"), (JStr (s_ "defines A.")))]); (JObj [((s_ "name"), (JStr (s_ "A")));
  ((s_ "description"), (JStr (s_ "defines A.")))])]))]),
   [(s_ "#/embeds/1/name: Duplicate names: 'A'")]);
  (* test_duplicate_class_and_embed *)
  ((JObj [((s_ "name"), (JStr (s_ "Some_graph")));
  ((s_ "description"), (JStr (s_ "defines some schema.")));
  ((s_ "classes"), (JArr [(JObj [((s_ "name"), (JStr (s_ "Some_name")));
  ((s_ "description"), (JStr (s_ "defines a class.")))])]));
  ((s_ "embeds"), (JArr [(JObj [((s_ "name"), (JStr (s_ "Some_name")));
  ((s_ "description"), (JStr (s_ "defines an embed.")))])]))]),
   [(s_ "#/embeds/0/name: Duplicate names: 'Some_name'")]);
  (* test_validate_class *)
  ((JObj [((s_ "name"), (JStr (s_ "Some_graph")));
  ((s_ "description"), (JStr (s_ "defines some schema.")));
  ((s_ "classes"), (JArr [(JObj [((s_ "name"), (JStr (s_ "Some_class")));
  ((s_ "description"), (JStr (s_ "defines a class.")));
  ((s_ "id_pattern"), (JStr (s_ "some invalid regex[")))])]))]),
   [(s_ "#/classes/0/id_pattern: Invalid regular expression: unterminated character set at position 18")]);
  (* test_validate_properties *)
  ((JObj [((s_ "name"), (JStr (s_ "Some_graph")));
  ((s_ "description"), (JStr (s_ "defines some schema.")));
  ((s_ "properties"), (JObj [((s_ "a"), (JObj [((s_ "type"), (JStr (s_ "Some_invalid_type")));
  ((s_ "description"), (JStr (s_ "defines some invalid property.")))]))]));
  ((s_ "classes"), (JArr [(JObj [((s_ "name"), (JStr (s_ "Some_class")));
  ((s_ "description"), (JStr (s_ "defines a class.")));
  ((s_ "properties"), (JObj [((s_ "a"), (JObj [((s_ "type"), (JStr (s_ "invalid")));
  ((s_ "description"), (JStr (s_ "defines some invalid property.")))]))]))])]));
  ((s_ "embeds"), (JArr [(JObj [((s_ "name"), (JStr (s_ "Some_embed")));
  ((s_ "description"), (JStr (s_ "defines an embed.")));
  ((s_ "properties"), (JObj [((s_ "a"), (JObj [((s_ "type"), (JStr (s_ "invalid")));
  ((s_ "description"), (JStr (s_ "defines some invalid property.")))]))]))])]))]),
   [(s_ "#/properties/a/type: Invalid type: Some_invalid_type");
    (s_ "#/classes/0/properties/a/type: Invalid type: invalid");
    (s_ "#/embeds/0/properties/a/type: Invalid type: invalid")]);
  (* test_validate_date_format *)
  ((JObj [((s_ "name"), (JStr (s_ "Some_graph")));
  ((s_ "description"), (JStr (s_ "defines some schema.")));
  ((s_ "properties"), (JObj [((s_ "a"), (JObj [((s_ "type"), (JStr (s_ "date")));
  ((s_ "description"), (JStr (s_ "date with an invalid format.")));
  ((s_ "format"), (JStr (s_ "%Y-%m-%d %H:%M:%S")))]))]))]),
   [(s_ "#/properties/a/format: Unexpected directive '%H' in a date format")]);
  (* test_validate_time_format *)
  ((JObj [((s_ "name"), (JStr (s_ "Some_graph")));
  ((s_ "description"), (JStr (s_ "defines some schema.")));
  ((s_ "properties"), (JObj [((s_ "a"), (JObj [((s_ "type"), (JStr (s_ "time")));
  ((s_ "description"), (JStr (s_ "time with an invalid format.")));
  ((s_ "format"), (JStr (s_ "%Y-%m-%d %H:%M:%S")))]))]))]),
   [(s_ "#/properties/a/format: Unexpected directive '%Y' in a time format")]);
  (* test_validate_plural_conflicts *)
  ((JObj [((s_ "name"), (JStr (s_ "Some_graph")));
  ((s_ "description"), (JStr (s_ "defines some schema.")));
  ((s_ "properties"), (JObj [((s_ "dummies"), (JObj [((s_ "type"), (JStr (s_ "string")));
  ((s_ "description"), (JStr (s_ "some property")))]));
  ((s_ "noi_s"), (JObj [((s_ "type"), (JStr (s_ "string")));
  ((s_ "description"), (JStr (s_ "another property")))]))]));
  ((s_ "classes"), (JArr [(JObj [((s_ "name"), (JStr (s_ "Dummy")));
  ((s_ "description"), (JStr (s_ "defines a dummy class.")))]); (JObj [((s_ "name"), (JStr (s_ "Noi")));
  ((s_ "description"), (JStr (s_ "defines another dummy class.")));
  ((s_ "plural"), (JStr (s_ "Noi_s")))])]))]),
   [(s_ "#/dummies: Graph property 'dummies' conflicts with the plural necessary for the registry of class 'Dummy'");
    (s_ "#/noi_s: Graph property 'noi_s' conflicts with the plural necessary for the registry of class 'Noi'")])
].

Definition cpp_validation_cases : list (jval * list str) := [
  (* test_properties *)
  ((JObj [((s_ "name"), (JStr (s_ "Some_graph")));
  ((s_ "description"), (JStr (s_ "defines some object graph.")));
  ((s_ "classes"), (JArr [(JObj [((s_ "name"), (JStr (s_ "Some_class")));
  ((s_ "description"), (JStr (s_ "defines a class with reserved property names.")));
  ((s_ "properties"), (JObj [((s_ "ID"), (JObj [((s_ "type"), (JStr (s_ "boolean")));
  ((s_ "description"), (JStr (s_ "conflicts with a keyword of the mapry.")))]));
  ((s_ "goto"), (JObj [((s_ "type"), (JStr (s_ "boolean")));
  ((s_ "description"), (JStr (s_ "conflicts with a keyword of C++.")))]))]))]); (JObj [((s_ "name"), (JStr (s_ "Reserved_plural")));
  ((s_ "description"), (JStr (s_ "defines a class with an invalid plural.")));
  ((s_ "plural"), (JStr (s_ "Volatile")))])]));
  ((s_ "embeds"), (JArr [(JObj [((s_ "name"), (JStr (s_ "Some_embed")));
  ((s_ "description"), (JStr (s_ "defines an embed with a reserved property name.")));
  ((s_ "properties"), (JObj [((s_ "goto"), (JObj [((s_ "type"), (JStr (s_ "boolean")));
  ((s_ "description"), (JStr (s_ "conflicts with a keyword.")))]))]))])]));
  ((s_ "properties"), (JObj [((s_ "goto"), (JObj [((s_ "type"), (JStr (s_ "boolean")));
  ((s_ "description"), (JStr (s_ "conflicts with a keyword.")))]))]))]),
   [(s_ "#/classes/0/goto: The C++ field identifier 'goto' is a keyword in C++");
    (s_ "#/classes/0/ID: The C++ field identifier 'id' is reserved for class identifiers and used by the autogenerated code");
    (s_ "#/embeds/0/goto: The C++ field identifier 'goto' is a keyword in C++");
    (s_ "#/goto: The C++ field identifier 'goto' is a keyword in C++");
    (s_ "#/classes/1: The C++ field identifier 'volatile' corresponding to the registry of the class 'Reserved_plural' in the object graph is a reserved keyword in C++")]);
  (* test_class_plural_with_graph_property *)
  ((JObj [((s_ "name"), (JStr (s_ "Some_graph")));
  ((s_ "description"), (JStr (s_ "defines some object graph.")));
  ((s_ "classes"), (JArr [(JObj [((s_ "name"), (JStr (s_ "Some_URL")));
  ((s_ "description"), (JStr (s_ "defines some class whose plural conflicts with a property of the object graph.")))])]));
  ((s_ "properties"), (JObj [((s_ "some_URLs"), (JObj [((s_ "type"), (JStr (s_ "boolean")));
  ((s_ "description"), (JStr (s_ "conflicts with another property.")))]))]))]),
   [(s_ "#/classes/0: The C++ field identifier 'some_urls' corresponding to the registry of the class 'Some_URL' in the object graph conflicts with another C++ field corresponding to a property of the object graph (#/some_URLs)")]);
  (* test_class_properties *)
  ((JObj [((s_ "name"), (JStr (s_ "Some_graph")));
  ((s_ "description"), (JStr (s_ "defines some object graph.")));
  ((s_ "classes"), (JArr [(JObj [((s_ "name"), (JStr (s_ "Some_class")));
  ((s_ "description"), (JStr (s_ "defines a class with a conflict.")));
  ((s_ "properties"), (JObj [((s_ "some_urls"), (JObj [((s_ "type"), (JStr (s_ "boolean")));
  ((s_ "description"), (JStr (s_ "conflicts with another property.")))]));
  ((s_ "some_URLs"), (JObj [((s_ "type"), (JStr (s_ "boolean")));
  ((s_ "description"), (JStr (s_ "conflicts with another property.")))]))]))])]))]),
   [(s_ "#/classes/0/some_urls: The C++ field identifier 'some_urls' conflicts another field (#/classes/0/some_URLs)")]);
  (* test_embed_properties *)
  ((JObj [((s_ "name"), (JStr (s_ "Some_graph")));
  ((s_ "description"), (JStr (s_ "defines some object graph.")));
  ((s_ "embeds"), (JArr [(JObj [((s_ "name"), (JStr (s_ "Some_embed")));
  ((s_ "description"), (JStr (s_ "defines an embeddable structure with a conflict.")));
  ((s_ "properties"), (JObj [((s_ "some_urls"), (JObj [((s_ "type"), (JStr (s_ "boolean")));
  ((s_ "description"), (JStr (s_ "conflicts with another property.")))]));
  ((s_ "some_URLs"), (JObj [((s_ "type"), (JStr (s_ "boolean")));
  ((s_ "description"), (JStr (s_ "conflicts with another property.")))]))]))])]))]),
   [(s_ "#/embeds/0/some_urls: The C++ field identifier 'some_urls' conflicts another field (#/embeds/0/some_URLs)")]);
  (* test_graph_properties *)
  ((JObj [((s_ "name"), (JStr (s_ "Some_graph")));
  ((s_ "description"), (JStr (s_ "defines an object graph with a conflict.")));
  ((s_ "properties"), (JObj [((s_ "some_urls"), (JObj [((s_ "type"), (JStr (s_ "boolean")));
  ((s_ "description"), (JStr (s_ "conflicts with another property.")))]));
  ((s_ "some_URLs"), (JObj [((s_ "type"), (JStr (s_ "boolean")));
  ((s_ "description"), (JStr (s_ "conflicts with another property.")))]))]))]),
   [(s_ "#/some_urls: The C++ field identifier 'some_urls' conflicts another field (#/some_URLs)")])
].
