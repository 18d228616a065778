(** Generated by tools/golden_py.py from /repo/test_cases: the recorded Python sources. *)
From Coq Require Import String List NArith.
From Verif Require Import Base M_Schema G_Cases.
Import ListNotations.

(** The name, the parameters, the names assigned, the other names *)
Definition recorded_function : Type := (str * list str * list str * list str)%type.
Record py_recorded_source := PySource {
  ps_types : list str; ps_from : list recorded_function; ps_to : list recorded_function; ps_parse : list recorded_function;
  ps_types_imports : list str; ps_from_imports : list str; ps_to_imports : list str; ps_parse_imports : list str }.

(** test_cases/docs/schema/introductory_example/py/test_generate *)
Definition py_docs_schema_introductory_example : py_recorded_source :=
  PySource
  [(s_ "Person(id:str,full_name:str,birthday:datetime.date,address:'Address')self.id=id;self.full_name=full_name;self.birthday=birthday;self.address=address");
   (s_ "Address(text:str)self.text=text");
   (s_ "Pipeline(maintainer:Person,persons:typing.Optional[typing.MutableMapping[str,Person]]=None)self.maintainer=maintainer;ifpersonsisnotNone:self.persons=personselse:self.persons=collections.OrderedDict()")]
  [((s_ "_person_from"), [(s_ "value");
   (s_ "ref");
   (s_ "target");
   (s_ "errors")], [(s_ "target_5");
   (s_ "value_0");
   (s_ "value_2");
   (s_ "value_4")], [(s_ "ValueError");
   (s_ "_address_from");
   (s_ "book");
   (s_ "datetime");
   (s_ "dict");
   (s_ "isinstance");
   (s_ "str");
   (s_ "type")]);
   ((s_ "person_from"), [(s_ "value");
   (s_ "id");
   (s_ "ref");
   (s_ "errors")], [(s_ "target")], [(s_ "_person_from");
   (s_ "book")]);
   ((s_ "_address_from"), [(s_ "value");
   (s_ "ref");
   (s_ "target");
   (s_ "errors")], [(s_ "value_0")], [(s_ "dict");
   (s_ "isinstance");
   (s_ "str");
   (s_ "type")]);
   ((s_ "address_from"), [(s_ "value");
   (s_ "ref");
   (s_ "errors")], [(s_ "target")], [(s_ "_address_from");
   (s_ "book")]);
   ((s_ "pipeline_from"), [(s_ "value");
   (s_ "ref");
   (s_ "errors")], [(s_ "graph");
   (s_ "id");
   (s_ "instance_value");
   (s_ "persons_registry");
   (s_ "registry_value");
   (s_ "target_1");
   (s_ "target_person");
   (s_ "value_0")], [(s_ "_person_from");
   (s_ "book");
   (s_ "collections");
   (s_ "dict");
   (s_ "isinstance");
   (s_ "repr");
   (s_ "str");
   (s_ "type")])]
  [((s_ "serialize_person"), [(s_ "instance");
   (s_ "ordered")], [(s_ "target")], [(s_ "collections");
   (s_ "dict");
   (s_ "serialize_address")]);
   ((s_ "serialize_address"), [(s_ "instance");
   (s_ "ordered")], [(s_ "target")], [(s_ "collections");
   (s_ "dict")]);
   ((s_ "serialize_pipeline"), [(s_ "instance");
   (s_ "ordered")], [(s_ "id");
   (s_ "person_instance");
   (s_ "target");
   (s_ "target_persons")], [(s_ "ValueError");
   (s_ "collections");
   (s_ "dict");
   (s_ "len");
   (s_ "serialize_person")])]
  [((s_ "placeholder_address"), [], [], [(s_ "book")]);
   ((s_ "placeholder_person"), [(s_ "id")], [], [(s_ "book")]);
   ((s_ "placeholder_pipeline"), [], [], [(s_ "book")])]
  [(s_ "collections");
   (s_ "datetime");
   (s_ "typing")] [(s_ "collections");
   (s_ "datetime");
   (s_ "typing");
   (s_ "book.address");
   (s_ "book.address.parse")] [(s_ "collections");
   (s_ "typing");
   (s_ "book.address")] [(s_ "typing");
   (s_ "book.address")].

(** test_cases/general/array/fails/invalid_types/py/test_generate *)
Definition py_general_array_fails_invalid_types : py_recorded_source :=
  PySource
  [(s_ "SomeGraph(array_of_booleans:typing.List[bool])self.array_of_booleans=array_of_booleans")]
  [((s_ "some_graph_from"), [(s_ "value");
   (s_ "ref");
   (s_ "errors")], [(s_ "graph");
   (s_ "i_1");
   (s_ "item_1");
   (s_ "target_1");
   (s_ "target_item_1");
   (s_ "value_0")], [(s_ "bool");
   (s_ "dict");
   (s_ "enumerate");
   (s_ "isinstance");
   (s_ "list");
   (s_ "some");
   (s_ "str");
   (s_ "type")])]
  [((s_ "serialize_some_graph"), [(s_ "instance");
   (s_ "ordered")], [(s_ "target")], [(s_ "collections");
   (s_ "dict")])]
  [((s_ "placeholder_some_graph"), [], [], [(s_ "some")])]
  [(s_ "typing")] [(s_ "typing");
   (s_ "some.graph");
   (s_ "some.graph.parse")] [(s_ "collections");
   (s_ "typing");
   (s_ "some.graph")] [(s_ "typing");
   (s_ "some.graph")].

(** test_cases/general/array/maximum_size/py/test_generate *)
Definition py_general_array_maximum_size : py_recorded_source :=
  PySource
  [(s_ "SomeGraph(array_of_booleans:typing.List[bool])self.array_of_booleans=array_of_booleans")]
  [((s_ "some_graph_from"), [(s_ "value");
   (s_ "ref");
   (s_ "errors")], [(s_ "graph");
   (s_ "i_1");
   (s_ "item_1");
   (s_ "target_1");
   (s_ "target_item_1");
   (s_ "value_0")], [(s_ "bool");
   (s_ "dict");
   (s_ "enumerate");
   (s_ "isinstance");
   (s_ "len");
   (s_ "list");
   (s_ "some");
   (s_ "str");
   (s_ "type")])]
  [((s_ "serialize_some_graph"), [(s_ "instance");
   (s_ "ordered")], [(s_ "target")], [(s_ "collections");
   (s_ "dict")])]
  [((s_ "placeholder_some_graph"), [], [], [(s_ "some")])]
  [(s_ "typing")] [(s_ "typing");
   (s_ "some.graph");
   (s_ "some.graph.parse")] [(s_ "collections");
   (s_ "typing");
   (s_ "some.graph")] [(s_ "typing");
   (s_ "some.graph")].

(** test_cases/general/array/minimum_size/py/test_generate *)
Definition py_general_array_minimum_size : py_recorded_source :=
  PySource
  [(s_ "SomeGraph(array_of_booleans:typing.List[bool])self.array_of_booleans=array_of_booleans")]
  [((s_ "some_graph_from"), [(s_ "value");
   (s_ "ref");
   (s_ "errors")], [(s_ "graph");
   (s_ "i_1");
   (s_ "item_1");
   (s_ "target_1");
   (s_ "target_item_1");
   (s_ "value_0")], [(s_ "bool");
   (s_ "dict");
   (s_ "enumerate");
   (s_ "isinstance");
   (s_ "len");
   (s_ "list");
   (s_ "some");
   (s_ "str");
   (s_ "type")])]
  [((s_ "serialize_some_graph"), [(s_ "instance");
   (s_ "ordered")], [(s_ "target")], [(s_ "collections");
   (s_ "dict")])]
  [((s_ "placeholder_some_graph"), [], [], [(s_ "some")])]
  [(s_ "typing")] [(s_ "typing");
   (s_ "some.graph");
   (s_ "some.graph.parse")] [(s_ "collections");
   (s_ "typing");
   (s_ "some.graph")] [(s_ "typing");
   (s_ "some.graph")].

(** test_cases/general/array/of/array/py/test_generate *)
Definition py_general_array_of_array : py_recorded_source :=
  PySource
  [(s_ "SomeGraph(array_of_arrays:typing.List[typing.List[bool]])self.array_of_arrays=array_of_arrays")]
  [((s_ "some_graph_from"), [(s_ "value");
   (s_ "ref");
   (s_ "errors")], [(s_ "graph");
   (s_ "i_1");
   (s_ "i_2");
   (s_ "item_1");
   (s_ "item_2");
   (s_ "target_1");
   (s_ "target_2");
   (s_ "target_item_1");
   (s_ "target_item_2");
   (s_ "value_0")], [(s_ "bool");
   (s_ "dict");
   (s_ "enumerate");
   (s_ "isinstance");
   (s_ "list");
   (s_ "some");
   (s_ "str");
   (s_ "type")])]
  [((s_ "serialize_some_graph"), [(s_ "instance");
   (s_ "ordered")], [(s_ "item_0");
   (s_ "target");
   (s_ "target_0");
   (s_ "target_item_0")], [(s_ "collections");
   (s_ "dict")])]
  [((s_ "placeholder_some_graph"), [], [], [(s_ "some")])]
  [(s_ "typing")] [(s_ "typing");
   (s_ "some.graph");
   (s_ "some.graph.parse")] [(s_ "collections");
   (s_ "typing");
   (s_ "some.graph")] [(s_ "typing");
   (s_ "some.graph")].

(** test_cases/general/array/of/boolean/py/test_generate *)
Definition py_general_array_of_boolean : py_recorded_source :=
  PySource
  [(s_ "SomeGraph(array_of_booleans:typing.List[bool])self.array_of_booleans=array_of_booleans")]
  [((s_ "some_graph_from"), [(s_ "value");
   (s_ "ref");
   (s_ "errors")], [(s_ "graph");
   (s_ "i_1");
   (s_ "item_1");
   (s_ "target_1");
   (s_ "target_item_1");
   (s_ "value_0")], [(s_ "bool");
   (s_ "dict");
   (s_ "enumerate");
   (s_ "isinstance");
   (s_ "list");
   (s_ "some");
   (s_ "str");
   (s_ "type")])]
  [((s_ "serialize_some_graph"), [(s_ "instance");
   (s_ "ordered")], [(s_ "target")], [(s_ "collections");
   (s_ "dict")])]
  [((s_ "placeholder_some_graph"), [], [], [(s_ "some")])]
  [(s_ "typing")] [(s_ "typing");
   (s_ "some.graph");
   (s_ "some.graph.parse")] [(s_ "collections");
   (s_ "typing");
   (s_ "some.graph")] [(s_ "typing");
   (s_ "some.graph")].

(** test_cases/general/array/of/class_ref/py/test_generate *)
Definition py_general_array_of_class_ref : py_recorded_source :=
  PySource
  [(s_ "Empty(id:str)self.id=id");
   (s_ "SomeGraph(array_of_class_refs:typing.List[Empty],empties:typing.Optional[typing.MutableMapping[str,Empty]]=None)self.array_of_class_refs=array_of_class_refs;ifemptiesisnotNone:self.empties=emptieselse:self.empties=collections.OrderedDict()")]
  [((s_ "_empty_from"), [(s_ "value");
   (s_ "ref");
   (s_ "target");
   (s_ "errors")], [], [(s_ "dict");
   (s_ "isinstance");
   (s_ "type")]);
   ((s_ "empty_from"), [(s_ "value");
   (s_ "id");
   (s_ "ref");
   (s_ "errors")], [(s_ "target")], [(s_ "_empty_from");
   (s_ "some")]);
   ((s_ "some_graph_from"), [(s_ "value");
   (s_ "ref");
   (s_ "errors")], [(s_ "empties_registry");
   (s_ "graph");
   (s_ "i_1");
   (s_ "id");
   (s_ "instance_value");
   (s_ "item_1");
   (s_ "registry_value");
   (s_ "target_1");
   (s_ "target_2");
   (s_ "target_empty");
   (s_ "target_item_1");
   (s_ "value_0")], [(s_ "_empty_from");
   (s_ "collections");
   (s_ "dict");
   (s_ "enumerate");
   (s_ "isinstance");
   (s_ "list");
   (s_ "repr");
   (s_ "some");
   (s_ "str");
   (s_ "type")])]
  [((s_ "serialize_empty"), [(s_ "instance");
   (s_ "ordered")], [(s_ "target")], [(s_ "collections");
   (s_ "dict")]);
   ((s_ "serialize_some_graph"), [(s_ "instance");
   (s_ "ordered")], [(s_ "empty_instance");
   (s_ "id");
   (s_ "item_0");
   (s_ "target");
   (s_ "target_0");
   (s_ "target_empties")], [(s_ "ValueError");
   (s_ "collections");
   (s_ "dict");
   (s_ "len");
   (s_ "serialize_empty")])]
  [((s_ "placeholder_empty"), [(s_ "id")], [], [(s_ "some")]);
   ((s_ "placeholder_some_graph"), [], [], [(s_ "some")])]
  [(s_ "collections");
   (s_ "typing")] [(s_ "collections");
   (s_ "typing");
   (s_ "some.graph");
   (s_ "some.graph.parse")] [(s_ "collections");
   (s_ "typing");
   (s_ "some.graph")] [(s_ "typing");
   (s_ "some.graph")].

(** test_cases/general/array/of/date/py/test_generate *)
Definition py_general_array_of_date : py_recorded_source :=
  PySource
  [(s_ "SomeGraph(array_of_dates:typing.List[datetime.date])self.array_of_dates=array_of_dates")]
  [((s_ "some_graph_from"), [(s_ "value");
   (s_ "ref");
   (s_ "errors")], [(s_ "graph");
   (s_ "i_1");
   (s_ "item_1");
   (s_ "target_1");
   (s_ "target_item_1");
   (s_ "value_0")], [(s_ "ValueError");
   (s_ "datetime");
   (s_ "dict");
   (s_ "enumerate");
   (s_ "isinstance");
   (s_ "list");
   (s_ "some");
   (s_ "str");
   (s_ "type")])]
  [((s_ "serialize_some_graph"), [(s_ "instance");
   (s_ "ordered")], [(s_ "item_0");
   (s_ "target");
   (s_ "target_0")], [(s_ "collections");
   (s_ "dict")])]
  [((s_ "placeholder_some_graph"), [], [], [(s_ "some")])]
  [(s_ "datetime");
   (s_ "typing")] [(s_ "datetime");
   (s_ "typing");
   (s_ "some.graph");
   (s_ "some.graph.parse")] [(s_ "collections");
   (s_ "typing");
   (s_ "some.graph")] [(s_ "typing");
   (s_ "some.graph")].

(** test_cases/general/array/of/datetime/py/test_generate *)
Definition py_general_array_of_datetime : py_recorded_source :=
  PySource
  [(s_ "SomeGraph(array_of_datetimes:typing.List[datetime.datetime])self.array_of_datetimes=array_of_datetimes")]
  [((s_ "some_graph_from"), [(s_ "value");
   (s_ "ref");
   (s_ "errors")], [(s_ "graph");
   (s_ "i_1");
   (s_ "item_1");
   (s_ "target_1");
   (s_ "target_item_1");
   (s_ "value_0")], [(s_ "ValueError");
   (s_ "datetime");
   (s_ "dict");
   (s_ "enumerate");
   (s_ "isinstance");
   (s_ "list");
   (s_ "some");
   (s_ "str");
   (s_ "type")])]
  [((s_ "serialize_some_graph"), [(s_ "instance");
   (s_ "ordered")], [(s_ "item_0");
   (s_ "target");
   (s_ "target_0")], [(s_ "collections");
   (s_ "dict")])]
  [((s_ "placeholder_some_graph"), [], [], [(s_ "some")])]
  [(s_ "datetime");
   (s_ "typing")] [(s_ "datetime");
   (s_ "typing");
   (s_ "some.graph");
   (s_ "some.graph.parse")] [(s_ "collections");
   (s_ "typing");
   (s_ "some.graph")] [(s_ "typing");
   (s_ "some.graph")].

(** test_cases/general/array/of/duration/py/test_generate *)
Definition py_general_array_of_duration : py_recorded_source :=
  PySource
  [(s_ "SomeGraph(array_of_durations:typing.List[datetime.timedelta])self.array_of_durations=array_of_durations")]
  [((s_ "some_graph_from"), [(s_ "value");
   (s_ "ref");
   (s_ "errors")], [(s_ "err");
   (s_ "graph");
   (s_ "i_1");
   (s_ "item_1");
   (s_ "target_1");
   (s_ "target_item_1");
   (s_ "value_0")], [(s_ "OverflowError");
   (s_ "ValueError");
   (s_ "_duration_from_string");
   (s_ "dict");
   (s_ "enumerate");
   (s_ "isinstance");
   (s_ "list");
   (s_ "some");
   (s_ "str");
   (s_ "type")])]
  [((s_ "serialize_some_graph"), [(s_ "instance");
   (s_ "ordered")], [(s_ "item_0");
   (s_ "target");
   (s_ "target_0")], [(s_ "_duration_to_string");
   (s_ "collections");
   (s_ "dict")])]
  [((s_ "placeholder_some_graph"), [], [], [(s_ "some")])]
  [(s_ "datetime");
   (s_ "typing")] [(s_ "datetime");
   (s_ "re");
   (s_ "typing");
   (s_ "some.graph");
   (s_ "some.graph.parse")] [(s_ "collections");
   (s_ "datetime");
   (s_ "typing");
   (s_ "some.graph")] [(s_ "typing");
   (s_ "some.graph")].

(** test_cases/general/array/of/embed/py/test_generate *)
Definition py_general_array_of_embed : py_recorded_source :=
  PySource
  [(s_ "Empty");
   (s_ "SomeGraph(array_of_embeds:typing.List[Empty])self.array_of_embeds=array_of_embeds")]
  [((s_ "_empty_from"), [(s_ "value");
   (s_ "ref");
   (s_ "target");
   (s_ "errors")], [], [(s_ "dict");
   (s_ "isinstance");
   (s_ "type")]);
   ((s_ "empty_from"), [(s_ "value");
   (s_ "ref");
   (s_ "errors")], [(s_ "target")], [(s_ "_empty_from");
   (s_ "some")]);
   ((s_ "some_graph_from"), [(s_ "value");
   (s_ "ref");
   (s_ "errors")], [(s_ "graph");
   (s_ "i_1");
   (s_ "item_1");
   (s_ "target_1");
   (s_ "target_2");
   (s_ "target_item_1");
   (s_ "value_0")], [(s_ "_empty_from");
   (s_ "dict");
   (s_ "enumerate");
   (s_ "isinstance");
   (s_ "list");
   (s_ "some");
   (s_ "str");
   (s_ "type")])]
  [((s_ "serialize_empty"), [(s_ "instance");
   (s_ "ordered")], [(s_ "target")], [(s_ "collections");
   (s_ "dict")]);
   ((s_ "serialize_some_graph"), [(s_ "instance");
   (s_ "ordered")], [(s_ "item_0");
   (s_ "target");
   (s_ "target_0")], [(s_ "collections");
   (s_ "dict");
   (s_ "serialize_empty")])]
  [((s_ "placeholder_empty"), [], [], [(s_ "some")]);
   ((s_ "placeholder_some_graph"), [], [], [(s_ "some")])]
  [(s_ "typing")] [(s_ "typing");
   (s_ "some.graph");
   (s_ "some.graph.parse")] [(s_ "collections");
   (s_ "typing");
   (s_ "some.graph")] [(s_ "typing");
   (s_ "some.graph")].

(** test_cases/general/array/of/float/py/test_generate *)
Definition py_general_array_of_float : py_recorded_source :=
  PySource
  [(s_ "SomeGraph(array_of_floats:typing.List[float])self.array_of_floats=array_of_floats")]
  [((s_ "some_graph_from"), [(s_ "value");
   (s_ "ref");
   (s_ "errors")], [(s_ "graph");
   (s_ "i_1");
   (s_ "item_1");
   (s_ "target_1");
   (s_ "target_item_1");
   (s_ "value_0")], [(s_ "dict");
   (s_ "enumerate");
   (s_ "float");
   (s_ "int");
   (s_ "isinstance");
   (s_ "list");
   (s_ "some");
   (s_ "str");
   (s_ "type")])]
  [((s_ "serialize_some_graph"), [(s_ "instance");
   (s_ "ordered")], [(s_ "target")], [(s_ "collections");
   (s_ "dict")])]
  [((s_ "placeholder_some_graph"), [], [], [(s_ "some")])]
  [(s_ "typing")] [(s_ "typing");
   (s_ "some.graph");
   (s_ "some.graph.parse")] [(s_ "collections");
   (s_ "typing");
   (s_ "some.graph")] [(s_ "typing");
   (s_ "some.graph")].

(** test_cases/general/array/of/integer/py/test_generate *)
Definition py_general_array_of_integer : py_recorded_source :=
  PySource
  [(s_ "SomeGraph(array_of_integers:typing.List[int])self.array_of_integers=array_of_integers")]
  [((s_ "some_graph_from"), [(s_ "value");
   (s_ "ref");
   (s_ "errors")], [(s_ "graph");
   (s_ "i_1");
   (s_ "item_1");
   (s_ "target_1");
   (s_ "target_item_1");
   (s_ "value_0")], [(s_ "dict");
   (s_ "enumerate");
   (s_ "int");
   (s_ "isinstance");
   (s_ "list");
   (s_ "some");
   (s_ "str");
   (s_ "type")])]
  [((s_ "serialize_some_graph"), [(s_ "instance");
   (s_ "ordered")], [(s_ "target")], [(s_ "collections");
   (s_ "dict")])]
  [((s_ "placeholder_some_graph"), [], [], [(s_ "some")])]
  [(s_ "typing")] [(s_ "typing");
   (s_ "some.graph");
   (s_ "some.graph.parse")] [(s_ "collections");
   (s_ "typing");
   (s_ "some.graph")] [(s_ "typing");
   (s_ "some.graph")].

(** test_cases/general/array/of/map/py/test_generate *)
Definition py_general_array_of_map : py_recorded_source :=
  PySource
  [(s_ "SomeGraph(array_of_maps:typing.List[typing.MutableMapping[str,bool]])self.array_of_maps=array_of_maps")]
  [((s_ "some_graph_from"), [(s_ "value");
   (s_ "ref");
   (s_ "errors")], [(s_ "graph");
   (s_ "i_1");
   (s_ "item_1");
   (s_ "key_2");
   (s_ "target_1");
   (s_ "target_2");
   (s_ "target_item_1");
   (s_ "target_item_2");
   (s_ "value_0");
   (s_ "value_2")], [(s_ "bool");
   (s_ "collections");
   (s_ "dict");
   (s_ "enumerate");
   (s_ "isinstance");
   (s_ "list");
   (s_ "repr");
   (s_ "some");
   (s_ "str");
   (s_ "type")])]
  [((s_ "serialize_some_graph"), [(s_ "instance");
   (s_ "ordered")], [(s_ "item_0");
   (s_ "key_1");
   (s_ "target");
   (s_ "target_0");
   (s_ "target_1");
   (s_ "target_item_0");
   (s_ "value_1")], [(s_ "collections");
   (s_ "dict");
   (s_ "isinstance")])]
  [((s_ "placeholder_some_graph"), [], [], [(s_ "some")])]
  [(s_ "typing")] [(s_ "collections");
   (s_ "typing");
   (s_ "some.graph");
   (s_ "some.graph.parse")] [(s_ "collections");
   (s_ "typing");
   (s_ "some.graph")] [(s_ "typing");
   (s_ "some.graph")].

(** test_cases/general/array/of/path/py/test_generate *)
Definition py_general_array_of_path : py_recorded_source :=
  PySource
  [(s_ "SomeGraph(array_of_paths:typing.List[pathlib.Path])self.array_of_paths=array_of_paths")]
  [((s_ "some_graph_from"), [(s_ "value");
   (s_ "ref");
   (s_ "errors")], [(s_ "graph");
   (s_ "i_1");
   (s_ "item_1");
   (s_ "target_1");
   (s_ "target_item_1");
   (s_ "value_0")], [(s_ "dict");
   (s_ "enumerate");
   (s_ "isinstance");
   (s_ "list");
   (s_ "pathlib");
   (s_ "some");
   (s_ "str");
   (s_ "type")])]
  [((s_ "serialize_some_graph"), [(s_ "instance");
   (s_ "ordered")], [(s_ "item_0");
   (s_ "target");
   (s_ "target_0")], [(s_ "collections");
   (s_ "dict");
   (s_ "str")])]
  [((s_ "placeholder_some_graph"), [], [], [(s_ "some")])]
  [(s_ "pathlib");
   (s_ "typing")] [(s_ "pathlib");
   (s_ "typing");
   (s_ "some.graph");
   (s_ "some.graph.parse")] [(s_ "collections");
   (s_ "typing");
   (s_ "some.graph")] [(s_ "typing");
   (s_ "some.graph")].

(** test_cases/general/array/of/string/py/test_generate *)
Definition py_general_array_of_string : py_recorded_source :=
  PySource
  [(s_ "SomeGraph(array_of_strings:typing.List[str])self.array_of_strings=array_of_strings")]
  [((s_ "some_graph_from"), [(s_ "value");
   (s_ "ref");
   (s_ "errors")], [(s_ "graph");
   (s_ "i_1");
   (s_ "item_1");
   (s_ "target_1");
   (s_ "target_item_1");
   (s_ "value_0")], [(s_ "dict");
   (s_ "enumerate");
   (s_ "isinstance");
   (s_ "list");
   (s_ "some");
   (s_ "str");
   (s_ "type")])]
  [((s_ "serialize_some_graph"), [(s_ "instance");
   (s_ "ordered")], [(s_ "target")], [(s_ "collections");
   (s_ "dict")])]
  [((s_ "placeholder_some_graph"), [], [], [(s_ "some")])]
  [(s_ "typing")] [(s_ "typing");
   (s_ "some.graph");
   (s_ "some.graph.parse")] [(s_ "collections");
   (s_ "typing");
   (s_ "some.graph")] [(s_ "typing");
   (s_ "some.graph")].

(** test_cases/general/array/of/time/py/test_generate *)
Definition py_general_array_of_time : py_recorded_source :=
  PySource
  [(s_ "SomeGraph(array_of_times:typing.List[datetime.time])self.array_of_times=array_of_times")]
  [((s_ "some_graph_from"), [(s_ "value");
   (s_ "ref");
   (s_ "errors")], [(s_ "graph");
   (s_ "i_1");
   (s_ "item_1");
   (s_ "target_1");
   (s_ "target_item_1");
   (s_ "value_0")], [(s_ "ValueError");
   (s_ "datetime");
   (s_ "dict");
   (s_ "enumerate");
   (s_ "isinstance");
   (s_ "list");
   (s_ "some");
   (s_ "str");
   (s_ "type")])]
  [((s_ "serialize_some_graph"), [(s_ "instance");
   (s_ "ordered")], [(s_ "item_0");
   (s_ "target");
   (s_ "target_0")], [(s_ "collections");
   (s_ "dict")])]
  [((s_ "placeholder_some_graph"), [], [], [(s_ "some")])]
  [(s_ "datetime");
   (s_ "typing")] [(s_ "datetime");
   (s_ "typing");
   (s_ "some.graph");
   (s_ "some.graph.parse")] [(s_ "collections");
   (s_ "typing");
   (s_ "some.graph")] [(s_ "typing");
   (s_ "some.graph")].

(** test_cases/general/array/of/time_zone/py/test_generate *)
Definition py_general_array_of_time_zone : py_recorded_source :=
  PySource
  [(s_ "SomeGraph(array_of_time_zones:typing.List[str])self.array_of_time_zones=array_of_time_zones")]
  [((s_ "some_graph_from"), [(s_ "value");
   (s_ "ref");
   (s_ "errors")], [(s_ "graph");
   (s_ "i_1");
   (s_ "item_1");
   (s_ "target_1");
   (s_ "target_item_1");
   (s_ "value_0")], [(s_ "dict");
   (s_ "enumerate");
   (s_ "isinstance");
   (s_ "list");
   (s_ "some");
   (s_ "str");
   (s_ "type")])]
  [((s_ "serialize_some_graph"), [(s_ "instance");
   (s_ "ordered")], [(s_ "target")], [(s_ "collections");
   (s_ "dict")])]
  [((s_ "placeholder_some_graph"), [], [], [(s_ "some")])]
  [(s_ "typing")] [(s_ "typing");
   (s_ "some.graph");
   (s_ "some.graph.parse")] [(s_ "collections");
   (s_ "typing");
   (s_ "some.graph")] [(s_ "typing");
   (s_ "some.graph")].

(** test_cases/general/class/py/test_generate *)
Definition py_general_class : py_recorded_source :=
  PySource
  [(s_ "Empty(id:str)self.id=id");
   (s_ "WithReference(id:str,reference_to_an_empty:Empty,array_of_empties:typing.List[Empty],map_of_empties:typing.MutableMapping[str,Empty])self.id=id;self.reference_to_an_empty=reference_to_an_empty;self.array_of_empties=array_of_empties;self.map_of_empties=map_of_empties");
   (s_ "SomeGraph(global_reference_to_an_empty:Empty,empties:typing.Optional[typing.MutableMapping[str,Empty]]=None,with_references:typing.Optional[typing.MutableMapping[str,WithReference]]=None)self.global_reference_to_an_empty=global_reference_to_an_empty;ifemptiesisnotNone:self.empties=emptieselse:self.empties=collections.OrderedDict();ifwith_referencesisnotNone:self.with_references=with_referenceselse:self.with_references=collections.OrderedDict()")]
  [((s_ "_empty_from"), [(s_ "value");
   (s_ "ref");
   (s_ "target");
   (s_ "errors")], [], [(s_ "dict");
   (s_ "isinstance");
   (s_ "type")]);
   ((s_ "empty_from"), [(s_ "value");
   (s_ "id");
   (s_ "ref");
   (s_ "errors")], [(s_ "target")], [(s_ "_empty_from");
   (s_ "some")]);
   ((s_ "_with_reference_from"), [(s_ "value");
   (s_ "empties_registry");
   (s_ "ref");
   (s_ "target");
   (s_ "errors")], [(s_ "i_3");
   (s_ "item_3");
   (s_ "key_6");
   (s_ "target_1");
   (s_ "target_3");
   (s_ "target_4");
   (s_ "target_6");
   (s_ "target_7");
   (s_ "target_item_3");
   (s_ "target_item_6");
   (s_ "value_0");
   (s_ "value_2");
   (s_ "value_5");
   (s_ "value_6")], [(s_ "collections");
   (s_ "dict");
   (s_ "enumerate");
   (s_ "isinstance");
   (s_ "list");
   (s_ "repr");
   (s_ "str");
   (s_ "type")]);
   ((s_ "with_reference_from"), [(s_ "value");
   (s_ "id");
   (s_ "empties_registry");
   (s_ "ref");
   (s_ "errors")], [(s_ "target")], [(s_ "_with_reference_from");
   (s_ "some")]);
   ((s_ "some_graph_from"), [(s_ "value");
   (s_ "ref");
   (s_ "errors")], [(s_ "empties_registry");
   (s_ "graph");
   (s_ "id");
   (s_ "instance_value");
   (s_ "registry_value");
   (s_ "target_1");
   (s_ "target_empty");
   (s_ "target_with_reference");
   (s_ "value_0");
   (s_ "with_references_registry")], [(s_ "_empty_from");
   (s_ "_with_reference_from");
   (s_ "collections");
   (s_ "dict");
   (s_ "isinstance");
   (s_ "re");
   (s_ "repr");
   (s_ "some");
   (s_ "str");
   (s_ "type")])]
  [((s_ "serialize_empty"), [(s_ "instance");
   (s_ "ordered")], [(s_ "target")], [(s_ "collections");
   (s_ "dict")]);
   ((s_ "serialize_with_reference"), [(s_ "instance");
   (s_ "ordered")], [(s_ "item_0");
   (s_ "key_1");
   (s_ "target");
   (s_ "target_0");
   (s_ "target_1");
   (s_ "value_1")], [(s_ "collections");
   (s_ "dict");
   (s_ "isinstance")]);
   ((s_ "serialize_some_graph"), [(s_ "instance");
   (s_ "ordered")], [(s_ "empty_instance");
   (s_ "id");
   (s_ "target");
   (s_ "target_empties");
   (s_ "target_with_references");
   (s_ "with_reference_instance")], [(s_ "ValueError");
   (s_ "collections");
   (s_ "dict");
   (s_ "len");
   (s_ "serialize_empty");
   (s_ "serialize_with_reference")])]
  [((s_ "placeholder_empty"), [(s_ "id")], [], [(s_ "some")]);
   ((s_ "placeholder_with_reference"), [(s_ "id")], [], [(s_ "some")]);
   ((s_ "placeholder_some_graph"), [], [], [(s_ "some")])]
  [(s_ "collections");
   (s_ "typing")] [(s_ "collections");
   (s_ "re");
   (s_ "typing");
   (s_ "some.graph");
   (s_ "some.graph.parse")] [(s_ "collections");
   (s_ "typing");
   (s_ "some.graph")] [(s_ "typing");
   (s_ "some.graph")].

(** test_cases/general/class_ref_in_embed/py/test_generate *)
Definition py_general_class_ref_in_embed : py_recorded_source :=
  PySource
  [(s_ "Empty(id:str)self.id=id");
   (s_ "EmbedWithRef(reference_to_empty:Empty)self.reference_to_empty=reference_to_empty");
   (s_ "SomeGraph(some_embed:EmbedWithRef,empties:typing.Optional[typing.MutableMapping[str,Empty]]=None)self.some_embed=some_embed;ifemptiesisnotNone:self.empties=emptieselse:self.empties=collections.OrderedDict()")]
  [((s_ "_empty_from"), [(s_ "value");
   (s_ "ref");
   (s_ "target");
   (s_ "errors")], [], [(s_ "dict");
   (s_ "isinstance");
   (s_ "type")]);
   ((s_ "empty_from"), [(s_ "value");
   (s_ "id");
   (s_ "ref");
   (s_ "errors")], [(s_ "target")], [(s_ "_empty_from");
   (s_ "some")]);
   ((s_ "_embed_with_ref_from"), [(s_ "value");
   (s_ "empties_registry");
   (s_ "ref");
   (s_ "target");
   (s_ "errors")], [(s_ "target_1");
   (s_ "value_0")], [(s_ "dict");
   (s_ "isinstance");
   (s_ "str");
   (s_ "type")]);
   ((s_ "embed_with_ref_from"), [(s_ "value");
   (s_ "empties_registry");
   (s_ "ref");
   (s_ "errors")], [(s_ "target")], [(s_ "_embed_with_ref_from");
   (s_ "some")]);
   ((s_ "some_graph_from"), [(s_ "value");
   (s_ "ref");
   (s_ "errors")], [(s_ "empties_registry");
   (s_ "graph");
   (s_ "id");
   (s_ "instance_value");
   (s_ "registry_value");
   (s_ "target_1");
   (s_ "target_empty");
   (s_ "value_0")], [(s_ "_embed_with_ref_from");
   (s_ "_empty_from");
   (s_ "collections");
   (s_ "dict");
   (s_ "isinstance");
   (s_ "repr");
   (s_ "some");
   (s_ "type")])]
  [((s_ "serialize_empty"), [(s_ "instance");
   (s_ "ordered")], [(s_ "target")], [(s_ "collections");
   (s_ "dict")]);
   ((s_ "serialize_embed_with_ref"), [(s_ "instance");
   (s_ "ordered")], [(s_ "target")], [(s_ "collections");
   (s_ "dict")]);
   ((s_ "serialize_some_graph"), [(s_ "instance");
   (s_ "ordered")], [(s_ "empty_instance");
   (s_ "id");
   (s_ "target");
   (s_ "target_empties")], [(s_ "ValueError");
   (s_ "collections");
   (s_ "dict");
   (s_ "len");
   (s_ "serialize_embed_with_ref");
   (s_ "serialize_empty")])]
  [((s_ "placeholder_embed_with_ref"), [], [], [(s_ "some")]);
   ((s_ "placeholder_empty"), [(s_ "id")], [], [(s_ "some")]);
   ((s_ "placeholder_some_graph"), [], [], [(s_ "some")])]
  [(s_ "collections");
   (s_ "typing")] [(s_ "collections");
   (s_ "typing");
   (s_ "some.graph");
   (s_ "some.graph.parse")] [(s_ "collections");
   (s_ "typing");
   (s_ "some.graph")] [(s_ "typing");
   (s_ "some.graph")].

(** test_cases/general/embed/py/test_generate *)
Definition py_general_embed : py_recorded_source :=
  PySource
  [(s_ "Empty");
   (s_ "NonEmpty(empty:Empty)self.empty=empty");
   (s_ "SomeGraph(some_embed:NonEmpty)self.some_embed=some_embed")]
  [((s_ "_empty_from"), [(s_ "value");
   (s_ "ref");
   (s_ "target");
   (s_ "errors")], [], [(s_ "dict");
   (s_ "isinstance");
   (s_ "type")]);
   ((s_ "empty_from"), [(s_ "value");
   (s_ "ref");
   (s_ "errors")], [(s_ "target")], [(s_ "_empty_from");
   (s_ "some")]);
   ((s_ "_non_empty_from"), [(s_ "value");
   (s_ "ref");
   (s_ "target");
   (s_ "errors")], [(s_ "target_1");
   (s_ "value_0")], [(s_ "_empty_from");
   (s_ "dict");
   (s_ "isinstance");
   (s_ "some");
   (s_ "type")]);
   ((s_ "non_empty_from"), [(s_ "value");
   (s_ "ref");
   (s_ "errors")], [(s_ "target")], [(s_ "_non_empty_from");
   (s_ "some")]);
   ((s_ "some_graph_from"), [(s_ "value");
   (s_ "ref");
   (s_ "errors")], [(s_ "graph");
   (s_ "target_1");
   (s_ "value_0")], [(s_ "_non_empty_from");
   (s_ "dict");
   (s_ "isinstance");
   (s_ "some");
   (s_ "type")])]
  [((s_ "serialize_empty"), [(s_ "instance");
   (s_ "ordered")], [(s_ "target")], [(s_ "collections");
   (s_ "dict")]);
   ((s_ "serialize_non_empty"), [(s_ "instance");
   (s_ "ordered")], [(s_ "target")], [(s_ "collections");
   (s_ "dict");
   (s_ "serialize_empty")]);
   ((s_ "serialize_some_graph"), [(s_ "instance");
   (s_ "ordered")], [(s_ "target")], [(s_ "collections");
   (s_ "dict");
   (s_ "serialize_non_empty")])]
  [((s_ "placeholder_empty"), [], [], [(s_ "some")]);
   ((s_ "placeholder_non_empty"), [], [], [(s_ "some")]);
   ((s_ "placeholder_some_graph"), [], [], [(s_ "some")])]
  [(s_ "typing")] [(s_ "typing");
   (s_ "some.graph");
   (s_ "some.graph.parse")] [(s_ "collections");
   (s_ "typing");
   (s_ "some.graph")] [(s_ "typing");
   (s_ "some.graph")].

(** test_cases/general/forward_declaration/py/test_generate *)
Definition py_general_forward_declaration : py_recorded_source :=
  PySource
  [(s_ "SomeClass(id:str,reference_other:'OtherClass',array_of_others:typing.List['OtherClass'],map_of_others:typing.MutableMapping[str,'OtherClass'])self.id=id;self.reference_other=reference_other;self.array_of_others=array_of_others;self.map_of_others=map_of_others");
   (s_ "OtherClass(id:str,reference_some:SomeClass,array_of_somes:typing.List[SomeClass],map_of_somes:typing.MutableMapping[str,SomeClass])self.id=id;self.reference_some=reference_some;self.array_of_somes=array_of_somes;self.map_of_somes=map_of_somes");
   (s_ "SomeGraph(some_classes:typing.Optional[typing.MutableMapping[str,SomeClass]]=None,other_classes:typing.Optional[typing.MutableMapping[str,OtherClass]]=None)ifsome_classesisnotNone:self.some_classes=some_classeselse:self.some_classes=collections.OrderedDict();ifother_classesisnotNone:self.other_classes=other_classeselse:self.other_classes=collections.OrderedDict()")]
  [((s_ "_some_class_from"), [(s_ "value");
   (s_ "other_classes_registry");
   (s_ "some_classes_registry");
   (s_ "ref");
   (s_ "target");
   (s_ "errors")], [(s_ "i_3");
   (s_ "item_3");
   (s_ "key_6");
   (s_ "target_1");
   (s_ "target_3");
   (s_ "target_4");
   (s_ "target_6");
   (s_ "target_7");
   (s_ "target_item_3");
   (s_ "target_item_6");
   (s_ "value_0");
   (s_ "value_2");
   (s_ "value_5");
   (s_ "value_6")], [(s_ "collections");
   (s_ "dict");
   (s_ "enumerate");
   (s_ "isinstance");
   (s_ "list");
   (s_ "repr");
   (s_ "str");
   (s_ "type")]);
   ((s_ "some_class_from"), [(s_ "value");
   (s_ "id");
   (s_ "other_classes_registry");
   (s_ "some_classes_registry");
   (s_ "ref");
   (s_ "errors")], [(s_ "target")], [(s_ "_some_class_from");
   (s_ "some")]);
   ((s_ "_other_class_from"), [(s_ "value");
   (s_ "other_classes_registry");
   (s_ "some_classes_registry");
   (s_ "ref");
   (s_ "target");
   (s_ "errors")], [(s_ "i_3");
   (s_ "item_3");
   (s_ "key_6");
   (s_ "target_1");
   (s_ "target_3");
   (s_ "target_4");
   (s_ "target_6");
   (s_ "target_7");
   (s_ "target_item_3");
   (s_ "target_item_6");
   (s_ "value_0");
   (s_ "value_2");
   (s_ "value_5");
   (s_ "value_6")], [(s_ "collections");
   (s_ "dict");
   (s_ "enumerate");
   (s_ "isinstance");
   (s_ "list");
   (s_ "repr");
   (s_ "str");
   (s_ "type")]);
   ((s_ "other_class_from"), [(s_ "value");
   (s_ "id");
   (s_ "other_classes_registry");
   (s_ "some_classes_registry");
   (s_ "ref");
   (s_ "errors")], [(s_ "target")], [(s_ "_other_class_from");
   (s_ "some")]);
   ((s_ "some_graph_from"), [(s_ "value");
   (s_ "ref");
   (s_ "errors")], [(s_ "graph");
   (s_ "id");
   (s_ "instance_value");
   (s_ "other_classes_registry");
   (s_ "registry_value");
   (s_ "some_classes_registry");
   (s_ "target_other_class");
   (s_ "target_some_class")], [(s_ "_other_class_from");
   (s_ "_some_class_from");
   (s_ "collections");
   (s_ "dict");
   (s_ "isinstance");
   (s_ "repr");
   (s_ "some");
   (s_ "type")])]
  [((s_ "serialize_some_class"), [(s_ "instance");
   (s_ "ordered")], [(s_ "item_0");
   (s_ "key_1");
   (s_ "target");
   (s_ "target_0");
   (s_ "target_1");
   (s_ "value_1")], [(s_ "collections");
   (s_ "dict");
   (s_ "isinstance")]);
   ((s_ "serialize_other_class"), [(s_ "instance");
   (s_ "ordered")], [(s_ "item_0");
   (s_ "key_1");
   (s_ "target");
   (s_ "target_0");
   (s_ "target_1");
   (s_ "value_1")], [(s_ "collections");
   (s_ "dict");
   (s_ "isinstance")]);
   ((s_ "serialize_some_graph"), [(s_ "instance");
   (s_ "ordered")], [(s_ "id");
   (s_ "other_class_instance");
   (s_ "some_class_instance");
   (s_ "target");
   (s_ "target_other_classes");
   (s_ "target_some_classes")], [(s_ "ValueError");
   (s_ "collections");
   (s_ "dict");
   (s_ "len");
   (s_ "serialize_other_class");
   (s_ "serialize_some_class")])]
  [((s_ "placeholder_some_class"), [(s_ "id")], [], [(s_ "some")]);
   ((s_ "placeholder_other_class"), [(s_ "id")], [], [(s_ "some")]);
   ((s_ "placeholder_some_graph"), [], [], [(s_ "some")])]
  [(s_ "collections");
   (s_ "typing")] [(s_ "collections");
   (s_ "typing");
   (s_ "some.graph");
   (s_ "some.graph.parse")] [(s_ "collections");
   (s_ "typing");
   (s_ "some.graph")] [(s_ "typing");
   (s_ "some.graph")].

(** test_cases/general/json_property/py/test_generate *)
Definition py_general_json_property : py_recorded_source :=
  PySource
  [(s_ "SomeGraph(some_bool:bool)self.some_bool=some_bool")]
  [((s_ "some_graph_from"), [(s_ "value");
   (s_ "ref");
   (s_ "errors")], [(s_ "graph");
   (s_ "value_0")], [(s_ "bool");
   (s_ "dict");
   (s_ "isinstance");
   (s_ "some");
   (s_ "type")])]
  [((s_ "serialize_some_graph"), [(s_ "instance");
   (s_ "ordered")], [(s_ "target")], [(s_ "collections");
   (s_ "dict")])]
  [((s_ "placeholder_some_graph"), [], [], [(s_ "some")])]
  [(s_ "typing")] [(s_ "typing");
   (s_ "some.graph");
   (s_ "some.graph.parse")] [(s_ "collections");
   (s_ "typing");
   (s_ "some.graph")] [(s_ "typing");
   (s_ "some.graph")].

(** test_cases/general/map/invalid_type/py/test_generate *)
Definition py_general_map_invalid_type : py_recorded_source :=
  PySource
  [(s_ "SomeGraph(map_of_booleans:typing.MutableMapping[str,bool])self.map_of_booleans=map_of_booleans")]
  [((s_ "some_graph_from"), [(s_ "value");
   (s_ "ref");
   (s_ "errors")], [(s_ "graph");
   (s_ "key_1");
   (s_ "target_1");
   (s_ "target_item_1");
   (s_ "value_0");
   (s_ "value_1")], [(s_ "bool");
   (s_ "collections");
   (s_ "dict");
   (s_ "isinstance");
   (s_ "repr");
   (s_ "some");
   (s_ "str");
   (s_ "type")])]
  [((s_ "serialize_some_graph"), [(s_ "instance");
   (s_ "ordered")], [(s_ "key_0");
   (s_ "target");
   (s_ "target_0");
   (s_ "value_0")], [(s_ "collections");
   (s_ "dict");
   (s_ "isinstance")])]
  [((s_ "placeholder_some_graph"), [], [], [(s_ "some")])]
  [(s_ "typing")] [(s_ "collections");
   (s_ "typing");
   (s_ "some.graph");
   (s_ "some.graph.parse")] [(s_ "collections");
   (s_ "typing");
   (s_ "some.graph")] [(s_ "typing");
   (s_ "some.graph")].

(** test_cases/general/map/of/array/py/test_generate *)
Definition py_general_map_of_array : py_recorded_source :=
  PySource
  [(s_ "SomeGraph(map_of_arrays:typing.MutableMapping[str,typing.List[bool]])self.map_of_arrays=map_of_arrays")]
  [((s_ "some_graph_from"), [(s_ "value");
   (s_ "ref");
   (s_ "errors")], [(s_ "graph");
   (s_ "i_2");
   (s_ "item_2");
   (s_ "key_1");
   (s_ "target_1");
   (s_ "target_2");
   (s_ "target_item_1");
   (s_ "target_item_2");
   (s_ "value_0");
   (s_ "value_1")], [(s_ "bool");
   (s_ "collections");
   (s_ "dict");
   (s_ "enumerate");
   (s_ "isinstance");
   (s_ "list");
   (s_ "repr");
   (s_ "some");
   (s_ "str");
   (s_ "type")])]
  [((s_ "serialize_some_graph"), [(s_ "instance");
   (s_ "ordered")], [(s_ "key_0");
   (s_ "target");
   (s_ "target_0");
   (s_ "target_value_0");
   (s_ "value_0")], [(s_ "collections");
   (s_ "dict");
   (s_ "isinstance")])]
  [((s_ "placeholder_some_graph"), [], [], [(s_ "some")])]
  [(s_ "typing")] [(s_ "collections");
   (s_ "typing");
   (s_ "some.graph");
   (s_ "some.graph.parse")] [(s_ "collections");
   (s_ "typing");
   (s_ "some.graph")] [(s_ "typing");
   (s_ "some.graph")].

(** test_cases/general/map/of/boolean/py/test_generate *)
Definition py_general_map_of_boolean : py_recorded_source :=
  PySource
  [(s_ "SomeGraph(map_of_booleans:typing.MutableMapping[str,bool])self.map_of_booleans=map_of_booleans")]
  [((s_ "some_graph_from"), [(s_ "value");
   (s_ "ref");
   (s_ "errors")], [(s_ "graph");
   (s_ "key_1");
   (s_ "target_1");
   (s_ "target_item_1");
   (s_ "value_0");
   (s_ "value_1")], [(s_ "bool");
   (s_ "collections");
   (s_ "dict");
   (s_ "isinstance");
   (s_ "repr");
   (s_ "some");
   (s_ "str");
   (s_ "type")])]
  [((s_ "serialize_some_graph"), [(s_ "instance");
   (s_ "ordered")], [(s_ "key_0");
   (s_ "target");
   (s_ "target_0");
   (s_ "value_0")], [(s_ "collections");
   (s_ "dict");
   (s_ "isinstance")])]
  [((s_ "placeholder_some_graph"), [], [], [(s_ "some")])]
  [(s_ "typing")] [(s_ "collections");
   (s_ "typing");
   (s_ "some.graph");
   (s_ "some.graph.parse")] [(s_ "collections");
   (s_ "typing");
   (s_ "some.graph")] [(s_ "typing");
   (s_ "some.graph")].

(** test_cases/general/map/of/class_ref/py/test_generate *)
Definition py_general_map_of_class_ref : py_recorded_source :=
  PySource
  [(s_ "Empty(id:str)self.id=id");
   (s_ "SomeGraph(map_of_class_refs:typing.MutableMapping[str,Empty],empties:typing.Optional[typing.MutableMapping[str,Empty]]=None)self.map_of_class_refs=map_of_class_refs;ifemptiesisnotNone:self.empties=emptieselse:self.empties=collections.OrderedDict()")]
  [((s_ "_empty_from"), [(s_ "value");
   (s_ "ref");
   (s_ "target");
   (s_ "errors")], [], [(s_ "dict");
   (s_ "isinstance");
   (s_ "type")]);
   ((s_ "empty_from"), [(s_ "value");
   (s_ "id");
   (s_ "ref");
   (s_ "errors")], [(s_ "target")], [(s_ "_empty_from");
   (s_ "some")]);
   ((s_ "some_graph_from"), [(s_ "value");
   (s_ "ref");
   (s_ "errors")], [(s_ "empties_registry");
   (s_ "graph");
   (s_ "id");
   (s_ "instance_value");
   (s_ "key_1");
   (s_ "registry_value");
   (s_ "target_1");
   (s_ "target_2");
   (s_ "target_empty");
   (s_ "target_item_1");
   (s_ "value_0");
   (s_ "value_1")], [(s_ "_empty_from");
   (s_ "collections");
   (s_ "dict");
   (s_ "isinstance");
   (s_ "repr");
   (s_ "some");
   (s_ "str");
   (s_ "type")])]
  [((s_ "serialize_empty"), [(s_ "instance");
   (s_ "ordered")], [(s_ "target")], [(s_ "collections");
   (s_ "dict")]);
   ((s_ "serialize_some_graph"), [(s_ "instance");
   (s_ "ordered")], [(s_ "empty_instance");
   (s_ "id");
   (s_ "key_0");
   (s_ "target");
   (s_ "target_0");
   (s_ "target_empties");
   (s_ "value_0")], [(s_ "ValueError");
   (s_ "collections");
   (s_ "dict");
   (s_ "isinstance");
   (s_ "len");
   (s_ "serialize_empty")])]
  [((s_ "placeholder_empty"), [(s_ "id")], [], [(s_ "some")]);
   ((s_ "placeholder_some_graph"), [], [], [(s_ "some")])]
  [(s_ "collections");
   (s_ "typing")] [(s_ "collections");
   (s_ "typing");
   (s_ "some.graph");
   (s_ "some.graph.parse")] [(s_ "collections");
   (s_ "typing");
   (s_ "some.graph")] [(s_ "typing");
   (s_ "some.graph")].

(** test_cases/general/map/of/date/py/test_generate *)
Definition py_general_map_of_date : py_recorded_source :=
  PySource
  [(s_ "SomeGraph(map_of_dates:typing.MutableMapping[str,datetime.date])self.map_of_dates=map_of_dates")]
  [((s_ "some_graph_from"), [(s_ "value");
   (s_ "ref");
   (s_ "errors")], [(s_ "graph");
   (s_ "key_1");
   (s_ "target_1");
   (s_ "target_item_1");
   (s_ "value_0");
   (s_ "value_1")], [(s_ "ValueError");
   (s_ "collections");
   (s_ "datetime");
   (s_ "dict");
   (s_ "isinstance");
   (s_ "repr");
   (s_ "some");
   (s_ "str");
   (s_ "type")])]
  [((s_ "serialize_some_graph"), [(s_ "instance");
   (s_ "ordered")], [(s_ "key_0");
   (s_ "target");
   (s_ "target_0");
   (s_ "value_0")], [(s_ "collections");
   (s_ "dict");
   (s_ "isinstance")])]
  [((s_ "placeholder_some_graph"), [], [], [(s_ "some")])]
  [(s_ "datetime");
   (s_ "typing")] [(s_ "collections");
   (s_ "datetime");
   (s_ "typing");
   (s_ "some.graph");
   (s_ "some.graph.parse")] [(s_ "collections");
   (s_ "typing");
   (s_ "some.graph")] [(s_ "typing");
   (s_ "some.graph")].

(** test_cases/general/map/of/datetime/py/test_generate *)
Definition py_general_map_of_datetime : py_recorded_source :=
  PySource
  [(s_ "SomeGraph(map_of_datetimes:typing.MutableMapping[str,datetime.datetime])self.map_of_datetimes=map_of_datetimes")]
  [((s_ "some_graph_from"), [(s_ "value");
   (s_ "ref");
   (s_ "errors")], [(s_ "graph");
   (s_ "key_1");
   (s_ "target_1");
   (s_ "target_item_1");
   (s_ "value_0");
   (s_ "value_1")], [(s_ "ValueError");
   (s_ "collections");
   (s_ "datetime");
   (s_ "dict");
   (s_ "isinstance");
   (s_ "repr");
   (s_ "some");
   (s_ "str");
   (s_ "type")])]
  [((s_ "serialize_some_graph"), [(s_ "instance");
   (s_ "ordered")], [(s_ "key_0");
   (s_ "target");
   (s_ "target_0");
   (s_ "value_0")], [(s_ "collections");
   (s_ "dict");
   (s_ "isinstance")])]
  [((s_ "placeholder_some_graph"), [], [], [(s_ "some")])]
  [(s_ "datetime");
   (s_ "typing")] [(s_ "collections");
   (s_ "datetime");
   (s_ "typing");
   (s_ "some.graph");
   (s_ "some.graph.parse")] [(s_ "collections");
   (s_ "typing");
   (s_ "some.graph")] [(s_ "typing");
   (s_ "some.graph")].

(** test_cases/general/map/of/duration/py/test_generate *)
Definition py_general_map_of_duration : py_recorded_source :=
  PySource
  [(s_ "SomeGraph(map_of_durations:typing.MutableMapping[str,datetime.timedelta])self.map_of_durations=map_of_durations")]
  [((s_ "some_graph_from"), [(s_ "value");
   (s_ "ref");
   (s_ "errors")], [(s_ "err");
   (s_ "graph");
   (s_ "key_1");
   (s_ "target_1");
   (s_ "target_item_1");
   (s_ "value_0");
   (s_ "value_1")], [(s_ "OverflowError");
   (s_ "ValueError");
   (s_ "_duration_from_string");
   (s_ "collections");
   (s_ "dict");
   (s_ "isinstance");
   (s_ "repr");
   (s_ "some");
   (s_ "str");
   (s_ "type")])]
  [((s_ "serialize_some_graph"), [(s_ "instance");
   (s_ "ordered")], [(s_ "key_0");
   (s_ "target");
   (s_ "target_0");
   (s_ "value_0")], [(s_ "_duration_to_string");
   (s_ "collections");
   (s_ "dict");
   (s_ "isinstance")])]
  [((s_ "placeholder_some_graph"), [], [], [(s_ "some")])]
  [(s_ "datetime");
   (s_ "typing")] [(s_ "collections");
   (s_ "datetime");
   (s_ "re");
   (s_ "typing");
   (s_ "some.graph");
   (s_ "some.graph.parse")] [(s_ "collections");
   (s_ "datetime");
   (s_ "typing");
   (s_ "some.graph")] [(s_ "typing");
   (s_ "some.graph")].

(** test_cases/general/map/of/embed/py/test_generate *)
Definition py_general_map_of_embed : py_recorded_source :=
  PySource
  [(s_ "SomeEmbed(some_property:bool)self.some_property=some_property");
   (s_ "SomeGraph(map_of_embeds:typing.MutableMapping[str,SomeEmbed])self.map_of_embeds=map_of_embeds")]
  [((s_ "_someembed_from"), [(s_ "value");
   (s_ "ref");
   (s_ "target");
   (s_ "errors")], [(s_ "value_0")], [(s_ "bool");
   (s_ "dict");
   (s_ "isinstance");
   (s_ "type")]);
   ((s_ "someembed_from"), [(s_ "value");
   (s_ "ref");
   (s_ "errors")], [(s_ "target")], [(s_ "_someembed_from");
   (s_ "some")]);
   ((s_ "some_graph_from"), [(s_ "value");
   (s_ "ref");
   (s_ "errors")], [(s_ "graph");
   (s_ "key_1");
   (s_ "target_1");
   (s_ "target_2");
   (s_ "target_item_1");
   (s_ "value_0");
   (s_ "value_1")], [(s_ "_someembed_from");
   (s_ "collections");
   (s_ "dict");
   (s_ "isinstance");
   (s_ "repr");
   (s_ "some");
   (s_ "str");
   (s_ "type")])]
  [((s_ "serialize_someembed"), [(s_ "instance");
   (s_ "ordered")], [(s_ "target")], [(s_ "collections");
   (s_ "dict")]);
   ((s_ "serialize_some_graph"), [(s_ "instance");
   (s_ "ordered")], [(s_ "key_0");
   (s_ "target");
   (s_ "target_0");
   (s_ "value_0")], [(s_ "collections");
   (s_ "dict");
   (s_ "isinstance");
   (s_ "serialize_someembed")])]
  [((s_ "placeholder_someembed"), [], [], [(s_ "some")]);
   ((s_ "placeholder_some_graph"), [], [], [(s_ "some")])]
  [(s_ "typing")] [(s_ "collections");
   (s_ "typing");
   (s_ "some.graph");
   (s_ "some.graph.parse")] [(s_ "collections");
   (s_ "typing");
   (s_ "some.graph")] [(s_ "typing");
   (s_ "some.graph")].

(** test_cases/general/map/of/float/py/test_generate *)
Definition py_general_map_of_float : py_recorded_source :=
  PySource
  [(s_ "SomeGraph(map_of_floats:typing.MutableMapping[str,float])self.map_of_floats=map_of_floats")]
  [((s_ "some_graph_from"), [(s_ "value");
   (s_ "ref");
   (s_ "errors")], [(s_ "graph");
   (s_ "key_1");
   (s_ "target_1");
   (s_ "target_item_1");
   (s_ "value_0");
   (s_ "value_1")], [(s_ "collections");
   (s_ "dict");
   (s_ "float");
   (s_ "int");
   (s_ "isinstance");
   (s_ "repr");
   (s_ "some");
   (s_ "str");
   (s_ "type")])]
  [((s_ "serialize_some_graph"), [(s_ "instance");
   (s_ "ordered")], [(s_ "key_0");
   (s_ "target");
   (s_ "target_0");
   (s_ "value_0")], [(s_ "collections");
   (s_ "dict");
   (s_ "isinstance")])]
  [((s_ "placeholder_some_graph"), [], [], [(s_ "some")])]
  [(s_ "typing")] [(s_ "collections");
   (s_ "typing");
   (s_ "some.graph");
   (s_ "some.graph.parse")] [(s_ "collections");
   (s_ "typing");
   (s_ "some.graph")] [(s_ "typing");
   (s_ "some.graph")].

(** test_cases/general/map/of/integer/py/test_generate *)
Definition py_general_map_of_integer : py_recorded_source :=
  PySource
  [(s_ "SomeGraph(map_of_integers:typing.MutableMapping[str,int])self.map_of_integers=map_of_integers")]
  [((s_ "some_graph_from"), [(s_ "value");
   (s_ "ref");
   (s_ "errors")], [(s_ "graph");
   (s_ "key_1");
   (s_ "target_1");
   (s_ "target_item_1");
   (s_ "value_0");
   (s_ "value_1")], [(s_ "collections");
   (s_ "dict");
   (s_ "int");
   (s_ "isinstance");
   (s_ "repr");
   (s_ "some");
   (s_ "str");
   (s_ "type")])]
  [((s_ "serialize_some_graph"), [(s_ "instance");
   (s_ "ordered")], [(s_ "key_0");
   (s_ "target");
   (s_ "target_0");
   (s_ "value_0")], [(s_ "collections");
   (s_ "dict");
   (s_ "isinstance")])]
  [((s_ "placeholder_some_graph"), [], [], [(s_ "some")])]
  [(s_ "typing")] [(s_ "collections");
   (s_ "typing");
   (s_ "some.graph");
   (s_ "some.graph.parse")] [(s_ "collections");
   (s_ "typing");
   (s_ "some.graph")] [(s_ "typing");
   (s_ "some.graph")].

(** test_cases/general/map/of/map/py/test_generate *)
Definition py_general_map_of_map : py_recorded_source :=
  PySource
  [(s_ "SomeGraph(map_of_maps:typing.MutableMapping[str,typing.MutableMapping[str,bool]])self.map_of_maps=map_of_maps")]
  [((s_ "some_graph_from"), [(s_ "value");
   (s_ "ref");
   (s_ "errors")], [(s_ "graph");
   (s_ "key_1");
   (s_ "key_2");
   (s_ "target_1");
   (s_ "target_2");
   (s_ "target_item_1");
   (s_ "target_item_2");
   (s_ "value_0");
   (s_ "value_1");
   (s_ "value_2")], [(s_ "bool");
   (s_ "collections");
   (s_ "dict");
   (s_ "isinstance");
   (s_ "repr");
   (s_ "some");
   (s_ "str");
   (s_ "type")])]
  [((s_ "serialize_some_graph"), [(s_ "instance");
   (s_ "ordered")], [(s_ "key_0");
   (s_ "key_1");
   (s_ "target");
   (s_ "target_0");
   (s_ "target_1");
   (s_ "target_value_0");
   (s_ "value_0");
   (s_ "value_1")], [(s_ "collections");
   (s_ "dict");
   (s_ "isinstance")])]
  [((s_ "placeholder_some_graph"), [], [], [(s_ "some")])]
  [(s_ "typing")] [(s_ "collections");
   (s_ "typing");
   (s_ "some.graph");
   (s_ "some.graph.parse")] [(s_ "collections");
   (s_ "typing");
   (s_ "some.graph")] [(s_ "typing");
   (s_ "some.graph")].

(** test_cases/general/map/of/path/py/test_generate *)
Definition py_general_map_of_path : py_recorded_source :=
  PySource
  [(s_ "SomeGraph(map_of_paths:typing.MutableMapping[str,pathlib.Path])self.map_of_paths=map_of_paths")]
  [((s_ "some_graph_from"), [(s_ "value");
   (s_ "ref");
   (s_ "errors")], [(s_ "graph");
   (s_ "key_1");
   (s_ "target_1");
   (s_ "target_item_1");
   (s_ "value_0");
   (s_ "value_1")], [(s_ "collections");
   (s_ "dict");
   (s_ "isinstance");
   (s_ "pathlib");
   (s_ "repr");
   (s_ "some");
   (s_ "str");
   (s_ "type")])]
  [((s_ "serialize_some_graph"), [(s_ "instance");
   (s_ "ordered")], [(s_ "key_0");
   (s_ "target");
   (s_ "target_0");
   (s_ "value_0")], [(s_ "collections");
   (s_ "dict");
   (s_ "isinstance");
   (s_ "str")])]
  [((s_ "placeholder_some_graph"), [], [], [(s_ "some")])]
  [(s_ "pathlib");
   (s_ "typing")] [(s_ "collections");
   (s_ "pathlib");
   (s_ "typing");
   (s_ "some.graph");
   (s_ "some.graph.parse")] [(s_ "collections");
   (s_ "typing");
   (s_ "some.graph")] [(s_ "typing");
   (s_ "some.graph")].

(** test_cases/general/map/of/string/py/test_generate *)
Definition py_general_map_of_string : py_recorded_source :=
  PySource
  [(s_ "SomeGraph(map_of_strings:typing.MutableMapping[str,str])self.map_of_strings=map_of_strings")]
  [((s_ "some_graph_from"), [(s_ "value");
   (s_ "ref");
   (s_ "errors")], [(s_ "graph");
   (s_ "key_1");
   (s_ "target_1");
   (s_ "target_item_1");
   (s_ "value_0");
   (s_ "value_1")], [(s_ "collections");
   (s_ "dict");
   (s_ "isinstance");
   (s_ "re");
   (s_ "repr");
   (s_ "some");
   (s_ "str");
   (s_ "type")])]
  [((s_ "serialize_some_graph"), [(s_ "instance");
   (s_ "ordered")], [(s_ "key_0");
   (s_ "target");
   (s_ "target_0");
   (s_ "value_0")], [(s_ "collections");
   (s_ "dict");
   (s_ "isinstance")])]
  [((s_ "placeholder_some_graph"), [], [], [(s_ "some")])]
  [(s_ "typing")] [(s_ "collections");
   (s_ "re");
   (s_ "typing");
   (s_ "some.graph");
   (s_ "some.graph.parse")] [(s_ "collections");
   (s_ "typing");
   (s_ "some.graph")] [(s_ "typing");
   (s_ "some.graph")].

(** test_cases/general/map/of/time_zone/py/test_generate *)
Definition py_general_map_of_time_zone : py_recorded_source :=
  PySource
  [(s_ "SomeGraph(map_of_time_zones:typing.MutableMapping[str,str])self.map_of_time_zones=map_of_time_zones")]
  [((s_ "some_graph_from"), [(s_ "value");
   (s_ "ref");
   (s_ "errors")], [(s_ "graph");
   (s_ "key_1");
   (s_ "target_1");
   (s_ "target_item_1");
   (s_ "value_0");
   (s_ "value_1")], [(s_ "collections");
   (s_ "dict");
   (s_ "isinstance");
   (s_ "repr");
   (s_ "some");
   (s_ "str");
   (s_ "type")])]
  [((s_ "serialize_some_graph"), [(s_ "instance");
   (s_ "ordered")], [(s_ "key_0");
   (s_ "target");
   (s_ "target_0");
   (s_ "value_0")], [(s_ "collections");
   (s_ "dict");
   (s_ "isinstance")])]
  [((s_ "placeholder_some_graph"), [], [], [(s_ "some")])]
  [(s_ "typing")] [(s_ "collections");
   (s_ "typing");
   (s_ "some.graph");
   (s_ "some.graph.parse")] [(s_ "collections");
   (s_ "typing");
   (s_ "some.graph")] [(s_ "typing");
   (s_ "some.graph")].

(** test_cases/general/optional_in_class/py/test_generate *)
Definition py_general_optional_in_class : py_recorded_source :=
  PySource
  [(s_ "WithOptional(id:str,some_text:typing.Optional[str]=None)self.id=id;self.some_text=some_textifsome_textisnotNoneelseNone");
   (s_ "SomeGraph(with_optionals:typing.Optional[typing.MutableMapping[str,WithOptional]]=None)ifwith_optionalsisnotNone:self.with_optionals=with_optionalselse:self.with_optionals=collections.OrderedDict()")]
  [((s_ "_with_optional_from"), [(s_ "value");
   (s_ "ref");
   (s_ "target");
   (s_ "errors")], [(s_ "value_0")], [(s_ "dict");
   (s_ "isinstance");
   (s_ "str");
   (s_ "type")]);
   ((s_ "with_optional_from"), [(s_ "value");
   (s_ "id");
   (s_ "ref");
   (s_ "errors")], [(s_ "target")], [(s_ "_with_optional_from");
   (s_ "some")]);
   ((s_ "some_graph_from"), [(s_ "value");
   (s_ "ref");
   (s_ "errors")], [(s_ "graph");
   (s_ "id");
   (s_ "instance_value");
   (s_ "registry_value");
   (s_ "target_with_optional");
   (s_ "with_optionals_registry")], [(s_ "_with_optional_from");
   (s_ "collections");
   (s_ "dict");
   (s_ "isinstance");
   (s_ "repr");
   (s_ "some");
   (s_ "type")])]
  [((s_ "serialize_with_optional"), [(s_ "instance");
   (s_ "ordered")], [(s_ "target")], [(s_ "collections");
   (s_ "dict")]);
   ((s_ "serialize_some_graph"), [(s_ "instance");
   (s_ "ordered")], [(s_ "id");
   (s_ "target");
   (s_ "target_with_optionals");
   (s_ "with_optional_instance")], [(s_ "ValueError");
   (s_ "collections");
   (s_ "dict");
   (s_ "len");
   (s_ "serialize_with_optional")])]
  [((s_ "placeholder_with_optional"), [(s_ "id")], [], [(s_ "some")]);
   ((s_ "placeholder_some_graph"), [], [], [(s_ "some")])]
  [(s_ "collections");
   (s_ "typing")] [(s_ "collections");
   (s_ "typing");
   (s_ "some.graph");
   (s_ "some.graph.parse")] [(s_ "collections");
   (s_ "typing");
   (s_ "some.graph")] [(s_ "typing");
   (s_ "some.graph")].

(** test_cases/general/optional_in_embed/py/test_generate *)
Definition py_general_optional_in_embed : py_recorded_source :=
  PySource
  [(s_ "WithOptional(some_text:typing.Optional[str]=None)self.some_text=some_textifsome_textisnotNoneelseNone");
   (s_ "SomeGraph(some_property:WithOptional)self.some_property=some_property")]
  [((s_ "_with_optional_from"), [(s_ "value");
   (s_ "ref");
   (s_ "target");
   (s_ "errors")], [(s_ "value_0")], [(s_ "dict");
   (s_ "isinstance");
   (s_ "str");
   (s_ "type")]);
   ((s_ "with_optional_from"), [(s_ "value");
   (s_ "ref");
   (s_ "errors")], [(s_ "target")], [(s_ "_with_optional_from");
   (s_ "some")]);
   ((s_ "some_graph_from"), [(s_ "value");
   (s_ "ref");
   (s_ "errors")], [(s_ "graph");
   (s_ "target_1");
   (s_ "value_0")], [(s_ "_with_optional_from");
   (s_ "dict");
   (s_ "isinstance");
   (s_ "some");
   (s_ "type")])]
  [((s_ "serialize_with_optional"), [(s_ "instance");
   (s_ "ordered")], [(s_ "target")], [(s_ "collections");
   (s_ "dict")]);
   ((s_ "serialize_some_graph"), [(s_ "instance");
   (s_ "ordered")], [(s_ "target")], [(s_ "collections");
   (s_ "dict");
   (s_ "serialize_with_optional")])]
  [((s_ "placeholder_with_optional"), [], [], [(s_ "some")]);
   ((s_ "placeholder_some_graph"), [], [], [(s_ "some")])]
  [(s_ "typing")] [(s_ "typing");
   (s_ "some.graph");
   (s_ "some.graph.parse")] [(s_ "collections");
   (s_ "typing");
   (s_ "some.graph")] [(s_ "typing");
   (s_ "some.graph")].

(** test_cases/general/optional_in_graph/py/test_generate *)
Definition py_general_optional_in_graph : py_recorded_source :=
  PySource
  [(s_ "Empty(id:str)self.id=id");
   (s_ "SomeEmbed");
   (s_ "SomeGraph(optional_array:typing.Optional[typing.List[int]]=None,optional_boolean:typing.Optional[bool]=None,optional_date:typing.Optional[datetime.date]=None,optional_datetime:typing.Optional[datetime.datetime]=None,optional_duration:typing.Optional[datetime.timedelta]=None,optional_float:typing.Optional[float]=None,optional_integer:typing.Optional[int]=None,optional_map:typing.Optional[typing.MutableMapping[str,int]]=None,optional_path:typing.Optional[pathlib.Path]=None,optional_string:typing.Optional[str]=None,optional_time:typing.Optional[datetime.time]=None,optional_time_zone:typing.Optional[str]=None,optional_reference:typing.Optional[Empty]=None,optional_embed:typing.Optional[SomeEmbed]=None,empties:typing.Optional[typing.MutableMapping[str,Empty]]=None)self.optional_array=optional_arrayifoptional_arrayisnotNoneelseNone;self.optional_boolean=optional_booleanifoptional_booleanisnotNoneelseNone;self.optional_date=optional_dateifoptional_dateisnotNoneelseNone;self.optional_datetime=optional_datetimeifoptional_datetimeisnotNoneelseNone;self.optional_duration=optional_durationifoptional_durationisnotNoneelseNone;self.optional_float=optional_floatifoptional_floatisnotNoneelseNone;self.optional_integer=optional_integerifoptional_integerisnotNoneelseNone;self.optional_map=optional_mapifoptional_mapisnotNoneelseNone;self.optional_path=optional_pathifoptional_pathisnotNoneelseNone;self.optional_string=optional_stringifoptional_stringisnotNoneelseNone;self.optional_time=optional_timeifoptional_timeisnotNoneelseNone;self.optional_time_zone=optional_time_zoneifoptional_time_zoneisnotNoneelseNone;self.optional_reference=optional_referenceifoptional_referenceisnotNoneelseNone;self.optional_embed=optional_embedifoptional_embedisnotNoneelseNone;ifemptiesisnotNone:self.empties=emptieselse:self.empties=collections.OrderedDict()")]
  [((s_ "_empty_from"), [(s_ "value");
   (s_ "ref");
   (s_ "target");
   (s_ "errors")], [], [(s_ "dict");
   (s_ "isinstance");
   (s_ "type")]);
   ((s_ "empty_from"), [(s_ "value");
   (s_ "id");
   (s_ "ref");
   (s_ "errors")], [(s_ "target")], [(s_ "_empty_from");
   (s_ "some")]);
   ((s_ "_some_embed_from"), [(s_ "value");
   (s_ "ref");
   (s_ "target");
   (s_ "errors")], [], [(s_ "dict");
   (s_ "isinstance");
   (s_ "type")]);
   ((s_ "some_embed_from"), [(s_ "value");
   (s_ "ref");
   (s_ "errors")], [(s_ "target")], [(s_ "_some_embed_from");
   (s_ "some")]);
   ((s_ "some_graph_from"), [(s_ "value");
   (s_ "ref");
   (s_ "errors")], [(s_ "empties_registry");
   (s_ "err");
   (s_ "graph");
   (s_ "i_1");
   (s_ "id");
   (s_ "instance_value");
   (s_ "item_1");
   (s_ "key_16");
   (s_ "registry_value");
   (s_ "target_1");
   (s_ "target_16");
   (s_ "target_27");
   (s_ "target_29");
   (s_ "target_empty");
   (s_ "target_item_1");
   (s_ "target_item_16");
   (s_ "value_0");
   (s_ "value_11");
   (s_ "value_13");
   (s_ "value_15");
   (s_ "value_16");
   (s_ "value_18");
   (s_ "value_20");
   (s_ "value_22");
   (s_ "value_24");
   (s_ "value_26");
   (s_ "value_28");
   (s_ "value_3");
   (s_ "value_5");
   (s_ "value_7");
   (s_ "value_9")], [(s_ "OverflowError");
   (s_ "ValueError");
   (s_ "_duration_from_string");
   (s_ "_empty_from");
   (s_ "_some_embed_from");
   (s_ "bool");
   (s_ "collections");
   (s_ "datetime");
   (s_ "dict");
   (s_ "enumerate");
   (s_ "float");
   (s_ "int");
   (s_ "isinstance");
   (s_ "list");
   (s_ "pathlib");
   (s_ "repr");
   (s_ "some");
   (s_ "str");
   (s_ "type")])]
  [((s_ "serialize_empty"), [(s_ "instance");
   (s_ "ordered")], [(s_ "target")], [(s_ "collections");
   (s_ "dict")]);
   ((s_ "serialize_some_embed"), [(s_ "instance");
   (s_ "ordered")], [(s_ "target")], [(s_ "collections");
   (s_ "dict")]);
   ((s_ "serialize_some_graph"), [(s_ "instance");
   (s_ "ordered")], [(s_ "empty_instance");
   (s_ "id");
   (s_ "key_1");
   (s_ "target");
   (s_ "target_1");
   (s_ "target_empties");
   (s_ "value_1")], [(s_ "ValueError");
   (s_ "_duration_to_string");
   (s_ "collections");
   (s_ "dict");
   (s_ "isinstance");
   (s_ "len");
   (s_ "serialize_empty");
   (s_ "serialize_some_embed");
   (s_ "str")])]
  [((s_ "placeholder_some_embed"), [], [], [(s_ "some")]);
   ((s_ "placeholder_empty"), [(s_ "id")], [], [(s_ "some")]);
   ((s_ "placeholder_some_graph"), [], [], [(s_ "some")])]
  [(s_ "collections");
   (s_ "datetime");
   (s_ "pathlib");
   (s_ "typing")] [(s_ "collections");
   (s_ "datetime");
   (s_ "pathlib");
   (s_ "re");
   (s_ "typing");
   (s_ "some.graph");
   (s_ "some.graph.parse")] [(s_ "collections");
   (s_ "datetime");
   (s_ "typing");
   (s_ "some.graph")] [(s_ "typing");
   (s_ "some.graph")].

(** test_cases/general/primitive_type/boolean/py/test_generate *)
Definition py_general_primitive_type_boolean : py_recorded_source :=
  PySource
  [(s_ "SomeGraph(some_bool:bool)self.some_bool=some_bool")]
  [((s_ "some_graph_from"), [(s_ "value");
   (s_ "ref");
   (s_ "errors")], [(s_ "graph");
   (s_ "value_0")], [(s_ "bool");
   (s_ "dict");
   (s_ "isinstance");
   (s_ "some");
   (s_ "type")])]
  [((s_ "serialize_some_graph"), [(s_ "instance");
   (s_ "ordered")], [(s_ "target")], [(s_ "collections");
   (s_ "dict")])]
  [((s_ "placeholder_some_graph"), [], [], [(s_ "some")])]
  [(s_ "typing")] [(s_ "typing");
   (s_ "some.graph");
   (s_ "some.graph.parse")] [(s_ "collections");
   (s_ "typing");
   (s_ "some.graph")] [(s_ "typing");
   (s_ "some.graph")].

(** test_cases/general/primitive_type/date/py/test_generate *)
Definition py_general_primitive_type_date : py_recorded_source :=
  PySource
  [(s_ "SomeGraph(some_date:datetime.date,formatless_date:datetime.date)self.some_date=some_date;self.formatless_date=formatless_date")]
  [((s_ "some_graph_from"), [(s_ "value");
   (s_ "ref");
   (s_ "errors")], [(s_ "graph");
   (s_ "value_0");
   (s_ "value_2")], [(s_ "ValueError");
   (s_ "datetime");
   (s_ "dict");
   (s_ "isinstance");
   (s_ "some");
   (s_ "str");
   (s_ "type")])]
  [((s_ "serialize_some_graph"), [(s_ "instance");
   (s_ "ordered")], [(s_ "target")], [(s_ "collections");
   (s_ "dict")])]
  [((s_ "placeholder_some_graph"), [], [], [(s_ "some")])]
  [(s_ "datetime");
   (s_ "typing")] [(s_ "datetime");
   (s_ "typing");
   (s_ "some.graph");
   (s_ "some.graph.parse")] [(s_ "collections");
   (s_ "typing");
   (s_ "some.graph")] [(s_ "typing");
   (s_ "some.graph")].

(** test_cases/general/primitive_type/datetime/py/test_generate *)
Definition py_general_primitive_type_datetime : py_recorded_source :=
  PySource
  [(s_ "SomeGraph(some_datetime:datetime.datetime,formatless_datetime:datetime.datetime)self.some_datetime=some_datetime;self.formatless_datetime=formatless_datetime")]
  [((s_ "some_graph_from"), [(s_ "value");
   (s_ "ref");
   (s_ "errors")], [(s_ "graph");
   (s_ "value_0");
   (s_ "value_2")], [(s_ "ValueError");
   (s_ "datetime");
   (s_ "dict");
   (s_ "isinstance");
   (s_ "some");
   (s_ "str");
   (s_ "type")])]
  [((s_ "serialize_some_graph"), [(s_ "instance");
   (s_ "ordered")], [(s_ "target")], [(s_ "collections");
   (s_ "dict")])]
  [((s_ "placeholder_some_graph"), [], [], [(s_ "some")])]
  [(s_ "datetime");
   (s_ "typing")] [(s_ "datetime");
   (s_ "typing");
   (s_ "some.graph");
   (s_ "some.graph.parse")] [(s_ "collections");
   (s_ "typing");
   (s_ "some.graph")] [(s_ "typing");
   (s_ "some.graph")].

(** test_cases/general/primitive_type/duration/py/test_generate *)
Definition py_general_primitive_type_duration : py_recorded_source :=
  PySource
  [(s_ "SomeGraph(some_duration:datetime.timedelta)self.some_duration=some_duration")]
  [((s_ "some_graph_from"), [(s_ "value");
   (s_ "ref");
   (s_ "errors")], [(s_ "err");
   (s_ "graph");
   (s_ "value_0")], [(s_ "OverflowError");
   (s_ "ValueError");
   (s_ "_duration_from_string");
   (s_ "dict");
   (s_ "isinstance");
   (s_ "some");
   (s_ "str");
   (s_ "type")])]
  [((s_ "serialize_some_graph"), [(s_ "instance");
   (s_ "ordered")], [(s_ "target")], [(s_ "_duration_to_string");
   (s_ "collections");
   (s_ "dict")])]
  [((s_ "placeholder_some_graph"), [], [], [(s_ "some")])]
  [(s_ "datetime");
   (s_ "typing")] [(s_ "datetime");
   (s_ "re");
   (s_ "typing");
   (s_ "some.graph");
   (s_ "some.graph.parse")] [(s_ "collections");
   (s_ "datetime");
   (s_ "typing");
   (s_ "some.graph")] [(s_ "typing");
   (s_ "some.graph")].

(** test_cases/general/primitive_type/float/py/test_generate *)
Definition py_general_primitive_type_float : py_recorded_source :=
  PySource
  [(s_ "SomeGraph(some_float_gt_0_lt_100:float,some_float_ge_0_le_100:float,unconstrained_float:float)self.some_float_gt_0_lt_100=some_float_gt_0_lt_100;self.some_float_ge_0_le_100=some_float_ge_0_le_100;self.unconstrained_float=unconstrained_float")]
  [((s_ "some_graph_from"), [(s_ "value");
   (s_ "ref");
   (s_ "errors")], [(s_ "graph");
   (s_ "value_0");
   (s_ "value_2");
   (s_ "value_4")], [(s_ "dict");
   (s_ "float");
   (s_ "int");
   (s_ "isinstance");
   (s_ "some");
   (s_ "type")])]
  [((s_ "serialize_some_graph"), [(s_ "instance");
   (s_ "ordered")], [(s_ "target")], [(s_ "collections");
   (s_ "dict")])]
  [((s_ "placeholder_some_graph"), [], [], [(s_ "some")])]
  [(s_ "typing")] [(s_ "typing");
   (s_ "some.graph");
   (s_ "some.graph.parse")] [(s_ "collections");
   (s_ "typing");
   (s_ "some.graph")] [(s_ "typing");
   (s_ "some.graph")].

(** test_cases/general/primitive_type/integer/py/test_generate *)
Definition py_general_primitive_type_integer : py_recorded_source :=
  PySource
  [(s_ "SomeGraph(some_int_gt_0_lt_100:int,some_int_ge_0_le_100:int,unconstrained_int:int)self.some_int_gt_0_lt_100=some_int_gt_0_lt_100;self.some_int_ge_0_le_100=some_int_ge_0_le_100;self.unconstrained_int=unconstrained_int")]
  [((s_ "some_graph_from"), [(s_ "value");
   (s_ "ref");
   (s_ "errors")], [(s_ "graph");
   (s_ "value_0");
   (s_ "value_2");
   (s_ "value_4")], [(s_ "dict");
   (s_ "int");
   (s_ "isinstance");
   (s_ "some");
   (s_ "type")])]
  [((s_ "serialize_some_graph"), [(s_ "instance");
   (s_ "ordered")], [(s_ "target")], [(s_ "collections");
   (s_ "dict")])]
  [((s_ "placeholder_some_graph"), [], [], [(s_ "some")])]
  [(s_ "typing")] [(s_ "typing");
   (s_ "some.graph");
   (s_ "some.graph.parse")] [(s_ "collections");
   (s_ "typing");
   (s_ "some.graph")] [(s_ "typing");
   (s_ "some.graph")].

(** test_cases/general/primitive_type/path/py/test_generate *)
Definition py_general_primitive_type_path : py_recorded_source :=
  PySource
  [(s_ "SomeGraph(some_path:pathlib.Path,unconstrained_path:pathlib.Path)self.some_path=some_path;self.unconstrained_path=unconstrained_path")]
  [((s_ "some_graph_from"), [(s_ "value");
   (s_ "ref");
   (s_ "errors")], [(s_ "graph");
   (s_ "value_0");
   (s_ "value_2")], [(s_ "dict");
   (s_ "isinstance");
   (s_ "pathlib");
   (s_ "re");
   (s_ "some");
   (s_ "str");
   (s_ "type")])]
  [((s_ "serialize_some_graph"), [(s_ "instance");
   (s_ "ordered")], [(s_ "target")], [(s_ "collections");
   (s_ "dict");
   (s_ "str")])]
  [((s_ "placeholder_some_graph"), [], [], [(s_ "some")])]
  [(s_ "pathlib");
   (s_ "typing")] [(s_ "pathlib");
   (s_ "re");
   (s_ "typing");
   (s_ "some.graph");
   (s_ "some.graph.parse")] [(s_ "collections");
   (s_ "typing");
   (s_ "some.graph")] [(s_ "typing");
   (s_ "some.graph")].

(** test_cases/general/primitive_type/string/py/test_generate *)
Definition py_general_primitive_type_string : py_recorded_source :=
  PySource
  [(s_ "SomeGraph(some_str:str,unconstrained_str:str)self.some_str=some_str;self.unconstrained_str=unconstrained_str")]
  [((s_ "some_graph_from"), [(s_ "value");
   (s_ "ref");
   (s_ "errors")], [(s_ "graph");
   (s_ "value_0");
   (s_ "value_2")], [(s_ "dict");
   (s_ "isinstance");
   (s_ "re");
   (s_ "some");
   (s_ "str");
   (s_ "type")])]
  [((s_ "serialize_some_graph"), [(s_ "instance");
   (s_ "ordered")], [(s_ "target")], [(s_ "collections");
   (s_ "dict")])]
  [((s_ "placeholder_some_graph"), [], [], [(s_ "some")])]
  [(s_ "typing")] [(s_ "re");
   (s_ "typing");
   (s_ "some.graph");
   (s_ "some.graph.parse")] [(s_ "collections");
   (s_ "typing");
   (s_ "some.graph")] [(s_ "typing");
   (s_ "some.graph")].

(** test_cases/general/primitive_type/time/py/test_generate *)
Definition py_general_primitive_type_time : py_recorded_source :=
  PySource
  [(s_ "SomeGraph(some_time:datetime.time,formatless_time:datetime.time)self.some_time=some_time;self.formatless_time=formatless_time")]
  [((s_ "some_graph_from"), [(s_ "value");
   (s_ "ref");
   (s_ "errors")], [(s_ "graph");
   (s_ "value_0");
   (s_ "value_2")], [(s_ "ValueError");
   (s_ "datetime");
   (s_ "dict");
   (s_ "isinstance");
   (s_ "some");
   (s_ "str");
   (s_ "type")])]
  [((s_ "serialize_some_graph"), [(s_ "instance");
   (s_ "ordered")], [(s_ "target")], [(s_ "collections");
   (s_ "dict")])]
  [((s_ "placeholder_some_graph"), [], [], [(s_ "some")])]
  [(s_ "datetime");
   (s_ "typing")] [(s_ "datetime");
   (s_ "typing");
   (s_ "some.graph");
   (s_ "some.graph.parse")] [(s_ "collections");
   (s_ "typing");
   (s_ "some.graph")] [(s_ "typing");
   (s_ "some.graph")].

(** test_cases/general/primitive_type/time_zone/py/test_generate *)
Definition py_general_primitive_type_time_zone : py_recorded_source :=
  PySource
  [(s_ "SomeGraph(some_time_zone:str)self.some_time_zone=some_time_zone")]
  [((s_ "some_graph_from"), [(s_ "value");
   (s_ "ref");
   (s_ "errors")], [(s_ "graph");
   (s_ "value_0")], [(s_ "dict");
   (s_ "isinstance");
   (s_ "some");
   (s_ "str");
   (s_ "type")])]
  [((s_ "serialize_some_graph"), [(s_ "instance");
   (s_ "ordered")], [(s_ "target")], [(s_ "collections");
   (s_ "dict")])]
  [((s_ "placeholder_some_graph"), [], [], [(s_ "some")])]
  [(s_ "typing")] [(s_ "typing");
   (s_ "some.graph");
   (s_ "some.graph.parse")] [(s_ "collections");
   (s_ "typing");
   (s_ "some.graph")] [(s_ "typing");
   (s_ "some.graph")].

(** test_cases/py/primitive_types/duration/py/test_generate *)
Definition py_py_primitive_types_duration : py_recorded_source :=
  PySource
  [(s_ "SomeGraph(some_duration:datetime.timedelta)self.some_duration=some_duration")]
  [((s_ "some_graph_from"), [(s_ "value");
   (s_ "ref");
   (s_ "errors")], [(s_ "err");
   (s_ "graph");
   (s_ "value_0")], [(s_ "OverflowError");
   (s_ "ValueError");
   (s_ "_duration_from_string");
   (s_ "dict");
   (s_ "isinstance");
   (s_ "some");
   (s_ "str");
   (s_ "type")])]
  [((s_ "serialize_some_graph"), [(s_ "instance");
   (s_ "ordered")], [(s_ "target")], [(s_ "_duration_to_string");
   (s_ "collections");
   (s_ "dict")])]
  [((s_ "placeholder_some_graph"), [], [], [(s_ "some")])]
  [(s_ "datetime");
   (s_ "typing")] [(s_ "datetime");
   (s_ "re");
   (s_ "typing");
   (s_ "some.graph");
   (s_ "some.graph.parse")] [(s_ "collections");
   (s_ "datetime");
   (s_ "typing");
   (s_ "some.graph")] [(s_ "typing");
   (s_ "some.graph")].

(** test_cases/py/primitive_types/float/py/test_generate *)
Definition py_py_primitive_types_float : py_recorded_source :=
  PySource
  [(s_ "SomeGraph(some_float:float)self.some_float=some_float")]
  [((s_ "some_graph_from"), [(s_ "value");
   (s_ "ref");
   (s_ "errors")], [(s_ "graph");
   (s_ "value_0")], [(s_ "dict");
   (s_ "float");
   (s_ "int");
   (s_ "isinstance");
   (s_ "some");
   (s_ "type")])]
  [((s_ "serialize_some_graph"), [(s_ "instance");
   (s_ "ordered")], [(s_ "target")], [(s_ "collections");
   (s_ "dict")])]
  [((s_ "placeholder_some_graph"), [], [], [(s_ "some")])]
  [(s_ "typing")] [(s_ "typing");
   (s_ "some.graph");
   (s_ "some.graph.parse")] [(s_ "collections");
   (s_ "typing");
   (s_ "some.graph")] [(s_ "typing");
   (s_ "some.graph")].

(** test_cases/py/primitive_types/integer/py/test_generate *)
Definition py_py_primitive_types_integer : py_recorded_source :=
  PySource
  [(s_ "SomeGraph(some_int:int)self.some_int=some_int")]
  [((s_ "some_graph_from"), [(s_ "value");
   (s_ "ref");
   (s_ "errors")], [(s_ "graph");
   (s_ "value_0")], [(s_ "dict");
   (s_ "int");
   (s_ "isinstance");
   (s_ "some");
   (s_ "type")])]
  [((s_ "serialize_some_graph"), [(s_ "instance");
   (s_ "ordered")], [(s_ "target")], [(s_ "collections");
   (s_ "dict")])]
  [((s_ "placeholder_some_graph"), [], [], [(s_ "some")])]
  [(s_ "typing")] [(s_ "typing");
   (s_ "some.graph");
   (s_ "some.graph.parse")] [(s_ "collections");
   (s_ "typing");
   (s_ "some.graph")] [(s_ "typing");
   (s_ "some.graph")].

(** test_cases/py/timezone_as_pytz_timezone/py/test_generate *)
Definition py_py_timezone_as_pytz_timezone : py_recorded_source :=
  PySource
  [(s_ "SomeGraph(some_time_zone:datetime.tzinfo)self.some_time_zone=some_time_zone")]
  [((s_ "some_graph_from"), [(s_ "value");
   (s_ "ref");
   (s_ "errors")], [(s_ "graph");
   (s_ "value_0")], [(s_ "dict");
   (s_ "isinstance");
   (s_ "pytz");
   (s_ "some");
   (s_ "str");
   (s_ "type")])]
  [((s_ "serialize_some_graph"), [(s_ "instance");
   (s_ "ordered")], [(s_ "target")], [(s_ "collections");
   (s_ "dict");
   (s_ "str")])]
  [((s_ "placeholder_some_graph"), [], [], [(s_ "some")])]
  [(s_ "datetime");
   (s_ "typing")] [(s_ "typing");
   (s_ "pytz");
   (s_ "pytz.exceptions");
   (s_ "some.graph");
   (s_ "some.graph.parse")] [(s_ "collections");
   (s_ "typing");
   (s_ "some.graph")] [(s_ "typing");
   (s_ "some.graph")].

Definition py_sources : list (jval * py_recorded_source) := [
(schema_docs_schema_introductory_example, py_docs_schema_introductory_example);
(schema_general_array_fails_invalid_types, py_general_array_fails_invalid_types);
(schema_general_array_maximum_size, py_general_array_maximum_size);
(schema_general_array_minimum_size, py_general_array_minimum_size);
(schema_general_array_of_array, py_general_array_of_array);
(schema_general_array_of_boolean, py_general_array_of_boolean);
(schema_general_array_of_class_ref, py_general_array_of_class_ref);
(schema_general_array_of_date, py_general_array_of_date);
(schema_general_array_of_datetime, py_general_array_of_datetime);
(schema_general_array_of_duration, py_general_array_of_duration);
(schema_general_array_of_embed, py_general_array_of_embed);
(schema_general_array_of_float, py_general_array_of_float);
(schema_general_array_of_integer, py_general_array_of_integer);
(schema_general_array_of_map, py_general_array_of_map);
(schema_general_array_of_path, py_general_array_of_path);
(schema_general_array_of_string, py_general_array_of_string);
(schema_general_array_of_time, py_general_array_of_time);
(schema_general_array_of_time_zone, py_general_array_of_time_zone);
(schema_general_class, py_general_class);
(schema_general_class_ref_in_embed, py_general_class_ref_in_embed);
(schema_general_embed, py_general_embed);
(schema_general_forward_declaration, py_general_forward_declaration);
(schema_general_json_property, py_general_json_property);
(schema_general_map_invalid_type, py_general_map_invalid_type);
(schema_general_map_of_array, py_general_map_of_array);
(schema_general_map_of_boolean, py_general_map_of_boolean);
(schema_general_map_of_class_ref, py_general_map_of_class_ref);
(schema_general_map_of_date, py_general_map_of_date);
(schema_general_map_of_datetime, py_general_map_of_datetime);
(schema_general_map_of_duration, py_general_map_of_duration);
(schema_general_map_of_embed, py_general_map_of_embed);
(schema_general_map_of_float, py_general_map_of_float);
(schema_general_map_of_integer, py_general_map_of_integer);
(schema_general_map_of_map, py_general_map_of_map);
(schema_general_map_of_path, py_general_map_of_path);
(schema_general_map_of_string, py_general_map_of_string);
(schema_general_map_of_time_zone, py_general_map_of_time_zone);
(schema_general_optional_in_class, py_general_optional_in_class);
(schema_general_optional_in_embed, py_general_optional_in_embed);
(schema_general_optional_in_graph, py_general_optional_in_graph);
(schema_general_primitive_type_boolean, py_general_primitive_type_boolean);
(schema_general_primitive_type_date, py_general_primitive_type_date);
(schema_general_primitive_type_datetime, py_general_primitive_type_datetime);
(schema_general_primitive_type_duration, py_general_primitive_type_duration);
(schema_general_primitive_type_float, py_general_primitive_type_float);
(schema_general_primitive_type_integer, py_general_primitive_type_integer);
(schema_general_primitive_type_path, py_general_primitive_type_path);
(schema_general_primitive_type_string, py_general_primitive_type_string);
(schema_general_primitive_type_time, py_general_primitive_type_time);
(schema_general_primitive_type_time_zone, py_general_primitive_type_time_zone);
(schema_py_primitive_types_duration, py_py_primitive_types_duration);
(schema_py_primitive_types_float, py_py_primitive_types_float);
(schema_py_primitive_types_integer, py_py_primitive_types_integer);
(schema_py_timezone_as_pytz_timezone, py_py_timezone_as_pytz_timezone)].
