(** Generated by tools/golden.py from /repo/test_cases: the recorded runs of the generated
    code.  A definition is named after its file. *)
From Coq Require Import String List NArith ZArith Floats.SpecFloat.
From Verif Require Import Base M_Schema M_PyGen G_Runs.
Import ListNotations.

(** test_cases/cpp/boost_optional/schema.json *)
Definition schema_cpp_boost_optional : jval :=
  (JObj [((s_ "name"), (JStr (s_ "Some_graph")));
  ((s_ "description"), (JStr (s_ "defines some object graph.")));
  ((s_ "cpp"), (JObj [((s_ "namespace"), (JStr (s_ "some::graph")));
  ((s_ "path_as"), (JStr (s_ "boost::filesystem::path")));
  ((s_ "optional_as"), (JStr (s_ "boost::optional")));
  ((s_ "datetime_library"), (JStr (s_ "ctime")))]));
  ((s_ "classes"), (JArr [(JObj [((s_ "name"), (JStr (s_ "Empty")));
  ((s_ "description"), (JStr (s_ "defines an empty class.")));
  ((s_ "id_pattern"), (JStr (s_ "^[a-zA-Z_][a-zA-Z_0-9]*$")))])]));
  ((s_ "properties"), (JObj [((s_ "optional_reference"), (JObj [((s_ "type"), (JStr (s_ "Empty")));
  ((s_ "description"), (JStr (s_ "defines an optional reference to an instance.")));
  ((s_ "optional"), (JBool true))]));
  ((s_ "optional_path"), (JObj [((s_ "type"), (JStr (s_ "path")));
  ((s_ "description"), (JStr (s_ "defines an optional path.")));
  ((s_ "optional"), (JBool true))]));
  ((s_ "optional_array"), (JObj [((s_ "type"), (JStr (s_ "array")));
  ((s_ "description"), (JStr (s_ "defines some optional array.")));
  ((s_ "values"), (JObj [((s_ "type"), (JStr (s_ "integer")))]));
  ((s_ "optional"), (JBool true))]));
  ((s_ "optional_map"), (JObj [((s_ "type"), (JStr (s_ "map")));
  ((s_ "description"), (JStr (s_ "defines some optional map.")));
  ((s_ "values"), (JObj [((s_ "type"), (JStr (s_ "integer")))]));
  ((s_ "optional"), (JBool true))]))]))]).
(** test_cases/cpp/boost_optional/example_fail_invalid_type.json *)
Definition value_cpp_boost_optional_example_fail_invalid_type : jval :=
  (JObj [((s_ "empties"), (JObj [((s_ "an_instance_of_empty"), (JObj []))]));
  ((s_ "optional_path"), (JInt (3)%Z))]).
(** test_cases/cpp/boost_optional/example_ok.json *)
Definition value_cpp_boost_optional_example_ok : jval :=
  (JObj [((s_ "empties"), (JObj [((s_ "an_instance_of_empty"), (JObj []))]));
  ((s_ "optional_reference"), (JStr (s_ "an_instance_of_empty")));
  ((s_ "optional_path"), (JStr (s_ "/some/folder")));
  ((s_ "optional_array"), (JArr [(JInt (3)%Z)]));
  ((s_ "optional_map"), (JObj [((s_ "some-key"), (JInt (3)%Z))]))]).
(** test_cases/cpp/boost_optional/example_ok_unspecified.json *)
Definition value_cpp_boost_optional_example_ok_unspecified : jval :=
  (JObj [((s_ "empties"), (JObj [((s_ "an-instace-of-empty"), (JObj []))]))]).

(** test_cases/cpp/class_error_causes_no_conflict/schema.json *)
Definition schema_cpp_class_error_causes_no_conflict : jval :=
  (JObj [((s_ "name"), (JStr (s_ "Some_graph")));
  ((s_ "description"), (JStr (s_ "defines some object graph.")));
  ((s_ "cpp"), (JObj [((s_ "namespace"), (JStr (s_ "some::graph")));
  ((s_ "path_as"), (JStr (s_ "boost::filesystem::path")));
  ((s_ "optional_as"), (JStr (s_ "boost::optional")));
  ((s_ "datetime_library"), (JStr (s_ "ctime")))]));
  ((s_ "classes"), (JArr [(JObj [((s_ "name"), (JStr (s_ "Error")));
  ((s_ "description"), (JStr (s_ "tests that there are no name conflicts with parse::Error.")))])]))]).
(** test_cases/cpp/class_error_causes_no_conflict/example_ok.json *)
Definition value_cpp_class_error_causes_no_conflict_example_ok : jval :=
  (JObj [((s_ "errors"), (JObj [((s_ "an-instance-of-error"), (JObj []))]))]).

(** test_cases/cpp/datetime_library_date/date/schema.json *)
Definition schema_cpp_datetime_library_date_date : jval :=
  (JObj [((s_ "name"), (JStr (s_ "Some_graph")));
  ((s_ "description"), (JStr (s_ "defines some object graph.")));
  ((s_ "cpp"), (JObj [((s_ "namespace"), (JStr (s_ "some::graph")));
  ((s_ "path_as"), (JStr (s_ "boost::filesystem::path")));
  ((s_ "optional_as"), (JStr (s_ "boost::optional")));
  ((s_ "datetime_library"), (JStr (s_ "date.h")))]));
  ((s_ "properties"), (JObj [((s_ "some_date"), (JObj [((s_ "type"), (JStr (s_ "date")));
  ((s_ "description"), (JStr (s_ "defines some date.")));
  ((s_ "format"), (JStr (s_ "%Y/%m/%d")))]));
  ((s_ "formatless_date"), (JObj [((s_ "type"), (JStr (s_ "date")));
  ((s_ "description"), (JStr (s_ "defines some formatless date.")))]))]))]).
(** test_cases/cpp/datetime_library_date/date/example_fail_invalid_format.json *)
Definition value_cpp_datetime_library_date_date_example_fail_invalid_format : jval :=
  (JObj [((s_ "some_date"), (JStr (s_ "2016!07!03")));
  ((s_ "formatless_date"), (JStr (s_ "2016!07!03")))]).
(** test_cases/cpp/datetime_library_date/date/example_ok.json *)
Definition value_cpp_datetime_library_date_date_example_ok : jval :=
  (JObj [((s_ "some_date"), (JStr (s_ "2016/07/03")));
  ((s_ "formatless_date"), (JStr (s_ "2016-07-03")))]).

(** test_cases/cpp/datetime_library_date/datetime/schema.json *)
Definition schema_cpp_datetime_library_date_datetime : jval :=
  (JObj [((s_ "name"), (JStr (s_ "Some_graph")));
  ((s_ "description"), (JStr (s_ "defines some object graph.")));
  ((s_ "cpp"), (JObj [((s_ "namespace"), (JStr (s_ "some::graph")));
  ((s_ "path_as"), (JStr (s_ "boost::filesystem::path")));
  ((s_ "optional_as"), (JStr (s_ "boost::optional")));
  ((s_ "datetime_library"), (JStr (s_ "date.h")))]));
  ((s_ "properties"), (JObj [((s_ "some_datetime"), (JObj [((s_ "type"), (JStr (s_ "datetime")));
  ((s_ "description"), (JStr (s_ "defines some datetime.")));
  ((s_ "format"), (JStr (s_ "%Y/%m/%d %H-%M-%SZ")))]));
  ((s_ "formatless_datetime"), (JObj [((s_ "type"), (JStr (s_ "datetime")));
  ((s_ "description"), (JStr (s_ "defines some formatless datetime.")))]))]))]).
(** test_cases/cpp/datetime_library_date/datetime/example_fail_invalid_format.json *)
Definition value_cpp_datetime_library_date_datetime_example_fail_invalid_format : jval :=
  (JObj [((s_ "some_datetime"), (JStr (s_ "2016!07!03 21!22!23Z")));
  ((s_ "formatless_datetime"), (JStr (s_ "2016!07!03T21!22!23Z")))]).
(** test_cases/cpp/datetime_library_date/datetime/example_ok.json *)
Definition value_cpp_datetime_library_date_datetime_example_ok : jval :=
  (JObj [((s_ "some_datetime"), (JStr (s_ "2016/07/03 21-22-23Z")));
  ((s_ "formatless_datetime"), (JStr (s_ "2016-07-03T21:22:23Z")))]).

(** test_cases/cpp/datetime_library_date/optional_timezone/schema.json *)
Definition schema_cpp_datetime_library_date_optional_timezone : jval :=
  (JObj [((s_ "name"), (JStr (s_ "Some_graph")));
  ((s_ "description"), (JStr (s_ "defines some object graph.")));
  ((s_ "cpp"), (JObj [((s_ "namespace"), (JStr (s_ "some::graph")));
  ((s_ "path_as"), (JStr (s_ "boost::filesystem::path")));
  ((s_ "optional_as"), (JStr (s_ "boost::optional")));
  ((s_ "datetime_library"), (JStr (s_ "date.h")))]));
  ((s_ "properties"), (JObj [((s_ "some_time_zone"), (JObj [((s_ "type"), (JStr (s_ "time_zone")));
  ((s_ "description"), (JStr (s_ "defines some time zone.")));
  ((s_ "optional"), (JBool true))]))]))]).
(** test_cases/cpp/datetime_library_date/optional_timezone/example_ok.json *)
Definition value_cpp_datetime_library_date_optional_timezone_example_ok : jval :=
  (JObj [((s_ "some_time_zone"), (JStr (s_ "Europe/Zurich")))]).

(** test_cases/cpp/datetime_library_date/time/schema.json *)
Definition schema_cpp_datetime_library_date_time : jval :=
  (JObj [((s_ "name"), (JStr (s_ "Some_graph")));
  ((s_ "description"), (JStr (s_ "defines some object graph.")));
  ((s_ "cpp"), (JObj [((s_ "namespace"), (JStr (s_ "some::graph")));
  ((s_ "path_as"), (JStr (s_ "boost::filesystem::path")));
  ((s_ "optional_as"), (JStr (s_ "boost::optional")));
  ((s_ "datetime_library"), (JStr (s_ "date.h")))]));
  ((s_ "properties"), (JObj [((s_ "some_time"), (JObj [((s_ "type"), (JStr (s_ "time")));
  ((s_ "description"), (JStr (s_ "defines some time.")));
  ((s_ "format"), (JStr (s_ "%H-%M-%S")))]));
  ((s_ "formatless_time"), (JObj [((s_ "type"), (JStr (s_ "time")));
  ((s_ "description"), (JStr (s_ "defines some formatless time.")))]))]))]).
(** test_cases/cpp/datetime_library_date/time/example_fail_invalid_format.json *)
Definition value_cpp_datetime_library_date_time_example_fail_invalid_format : jval :=
  (JObj [((s_ "some_time"), (JStr (s_ "21!22!23")));
  ((s_ "formatless_time"), (JStr (s_ "21!22!23")))]).
(** test_cases/cpp/datetime_library_date/time/example_ok.json *)
Definition value_cpp_datetime_library_date_time_example_ok : jval :=
  (JObj [((s_ "some_time"), (JStr (s_ "21-22-23")));
  ((s_ "formatless_time"), (JStr (s_ "21:22:23")))]).

(** test_cases/cpp/datetime_library_date/timezone/schema.json *)
Definition schema_cpp_datetime_library_date_timezone : jval :=
  (JObj [((s_ "name"), (JStr (s_ "Some_graph")));
  ((s_ "description"), (JStr (s_ "defines some object graph.")));
  ((s_ "cpp"), (JObj [((s_ "namespace"), (JStr (s_ "some::graph")));
  ((s_ "path_as"), (JStr (s_ "boost::filesystem::path")));
  ((s_ "optional_as"), (JStr (s_ "boost::optional")));
  ((s_ "datetime_library"), (JStr (s_ "date.h")))]));
  ((s_ "properties"), (JObj [((s_ "some_time_zone"), (JObj [((s_ "type"), (JStr (s_ "time_zone")));
  ((s_ "description"), (JStr (s_ "defines some time zone.")))]))]))]).
(** test_cases/cpp/datetime_library_date/timezone/example_fail_invalid_timezone.json *)
Definition value_cpp_datetime_library_date_timezone_example_fail_invalid_timezone : jval :=
  (JObj [((s_ "some_time_zone"), (JStr (s_ "Singidunum/Taurunum")))]).
(** test_cases/cpp/datetime_library_date/timezone/example_ok.json *)
Definition value_cpp_datetime_library_date_timezone_example_ok : jval :=
  (JObj [((s_ "some_time_zone"), (JStr (s_ "Europe/Zurich")))]).

(** test_cases/cpp/primitive_types/duration/schema.json *)
Definition schema_cpp_primitive_types_duration : jval :=
  (JObj [((s_ "name"), (JStr (s_ "Some_graph")));
  ((s_ "description"), (JStr (s_ "defines some object graph.")));
  ((s_ "cpp"), (JObj [((s_ "namespace"), (JStr (s_ "some::graph")));
  ((s_ "path_as"), (JStr (s_ "boost::filesystem::path")));
  ((s_ "optional_as"), (JStr (s_ "boost::optional")));
  ((s_ "datetime_library"), (JStr (s_ "ctime")))]));
  ((s_ "properties"), (JObj [((s_ "some_duration"), (JObj [((s_ "type"), (JStr (s_ "duration")));
  ((s_ "description"), (JStr (s_ "defines some duration.")))]))]))]).
(** test_cases/cpp/primitive_types/duration/example_fail_precision_lost.json *)
Definition value_cpp_primitive_types_duration_example_fail_precision_lost : jval :=
  (JObj [((s_ "some_duration"), (JStr (s_ "PT0.0000000001S")))]).
(** test_cases/cpp/primitive_types/duration/example_fail_too_many_years.json *)
Definition value_cpp_primitive_types_duration_example_fail_too_many_years : jval :=
  (JObj [((s_ "some_duration"), (JStr (s_ "P300Y")))]).

(** test_cases/cpp/primitive_types/float/schema.json *)
Definition schema_cpp_primitive_types_float : jval :=
  (JObj [((s_ "name"), (JStr (s_ "Some_graph")));
  ((s_ "description"), (JStr (s_ "defines some object graph.")));
  ((s_ "cpp"), (JObj [((s_ "namespace"), (JStr (s_ "some::graph")));
  ((s_ "path_as"), (JStr (s_ "boost::filesystem::path")));
  ((s_ "optional_as"), (JStr (s_ "boost::optional")));
  ((s_ "datetime_library"), (JStr (s_ "ctime")))]));
  ((s_ "properties"), (JObj [((s_ "some_float"), (JObj [((s_ "type"), (JStr (s_ "float")));
  ((s_ "description"), (JStr (s_ "defines a float.")))]))]))]).
(** test_cases/cpp/primitive_types/float/example_ok_lowest.json *)
Definition value_cpp_primitive_types_float_example_ok_lowest : jval :=
  (JObj [((s_ "some_float"), (JFloat (S754_finite true 9007199254740991 (971)%Z)))]).
(** test_cases/cpp/primitive_types/float/example_ok_max.json *)
Definition value_cpp_primitive_types_float_example_ok_max : jval :=
  (JObj [((s_ "some_float"), (JFloat (S754_finite false 9007199254740991 (971)%Z)))]).
(** test_cases/cpp/primitive_types/float/example_ok_min.json *)
Definition value_cpp_primitive_types_float_example_ok_min : jval :=
  (JObj [((s_ "some_float"), (JFloat (S754_finite false 4503599627370496 (-1074)%Z)))]).

(** test_cases/cpp/primitive_types/integer/schema.json *)
Definition schema_cpp_primitive_types_integer : jval :=
  (JObj [((s_ "name"), (JStr (s_ "Some_graph")));
  ((s_ "description"), (JStr (s_ "defines some object graph.")));
  ((s_ "cpp"), (JObj [((s_ "namespace"), (JStr (s_ "some::graph")));
  ((s_ "path_as"), (JStr (s_ "boost::filesystem::path")));
  ((s_ "optional_as"), (JStr (s_ "boost::optional")));
  ((s_ "datetime_library"), (JStr (s_ "ctime")))]));
  ((s_ "properties"), (JObj [((s_ "some_int"), (JObj [((s_ "type"), (JStr (s_ "integer")));
  ((s_ "description"), (JStr (s_ "defines an integer.")))]))]))]).
(** test_cases/cpp/primitive_types/integer/example_fail_fraction.json *)
Definition value_cpp_primitive_types_integer_example_fail_fraction : jval :=
  (JObj [((s_ "some_int"), (JFloat (S754_finite false 7205759403792794 (-51)%Z)))]).
(** test_cases/cpp/primitive_types/integer/example_fail_overflow_minus.json *)
Definition value_cpp_primitive_types_integer_example_fail_overflow_minus_cpp : jval :=
  (JObj [((s_ "some_int"), (JFloat (S754_finite true 4503599627370497 (11)%Z)))]).
(** test_cases/cpp/primitive_types/integer/example_fail_overflow_plus.json *)
Definition value_cpp_primitive_types_integer_example_fail_overflow_plus : jval :=
  (JObj [((s_ "some_int"), (JInt (9223372036854775808)%Z))]).
(** test_cases/cpp/primitive_types/integer/example_ok_max.json *)
Definition value_cpp_primitive_types_integer_example_ok_max : jval :=
  (JObj [((s_ "some_int"), (JInt (9223372036854775807)%Z))]).
(** test_cases/cpp/primitive_types/integer/example_ok_min.json *)
Definition value_cpp_primitive_types_integer_example_ok_min : jval :=
  (JObj [((s_ "some_int"), (JInt (-9223372036854775808)%Z))]).

(** test_cases/docs/schema/introductory_example/schema.json *)
Definition schema_docs_schema_introductory_example : jval :=
  (JObj [((s_ "name"), (JStr (s_ "Pipeline")));
  ((s_ "description"), (JStr (s_ "defines an address book.")));
  ((s_ "cpp"), (JObj [((s_ "namespace"), (JStr (s_ "book::address")));
  ((s_ "path_as"), (JStr (s_ "boost::filesystem::path")));
  ((s_ "optional_as"), (JStr (s_ "std::experimental::optional")));
  ((s_ "datetime_library"), (JStr (s_ "ctime")))]));
  ((s_ "go"), (JObj [((s_ "package"), (JStr (s_ "address")))]));
  ((s_ "py"), (JObj [((s_ "module_name"), (JStr (s_ "book.address")));
  ((s_ "path_as"), (JStr (s_ "pathlib.Path")));
  ((s_ "timezone_as"), (JStr (s_ "pytz.timezone")))]));
  ((s_ "classes"), (JArr [(JObj [((s_ "name"), (JStr (s_ "Person")));
  ((s_ "description"), (JStr (s_ "defines a contactable person.")));
  ((s_ "properties"), (JObj [((s_ "full_name"), (JObj [((s_ "type"), (JStr (s_ "string")));
  ((s_ "description"), (JStr (s_ "gives the full name (including middle names).")))]));
  ((s_ "birthday"), (JObj [((s_ "type"), (JStr (s_ "date")));
  ((s_ "description"), (JStr (s_ "indicates the birthday in UTC.")))]));
  ((s_ "address"), (JObj [((s_ "type"), (JStr (s_ "Address")));
  ((s_ "description"), (JStr (s_ "notes where the person lives.")))]))]))])]));
  ((s_ "embeds"), (JArr [(JObj [((s_ "name"), (JStr (s_ "Address")));
  ((s_ "description"), (JStr (s_ "defines an address.")));
  ((s_ "properties"), (JObj [((s_ "text"), (JObj [((s_ "type"), (JStr (s_ "string")));
  ((s_ "description"), (JStr (s_ "gives the full address.")))]))]))])]));
  ((s_ "properties"), (JObj [((s_ "maintainer"), (JObj [((s_ "type"), (JStr (s_ "Person")));
  ((s_ "description"), (JStr (s_ "indicates the maintainer of the address book.")))]))]))]).
(** test_cases/docs/schema/introductory_example/example_ok.json *)
Definition value_docs_schema_introductory_example_example_ok : jval :=
  (JObj [((s_ "persons"), (JObj [((s_ "alice"), (JObj [((s_ "full_name"), (JStr (s_ "Alice Doe")));
  ((s_ "birthday"), (JStr (s_ "1983-10-24")));
  ((s_ "address"), (JObj [((s_ "text"), (JStr (s_ "Some street 12, Some City, Some Country")))]))]));
  ((s_ "bob"), (JObj [((s_ "full_name"), (JStr (s_ "Bob Johnson")));
  ((s_ "birthday"), (JStr (s_ "2016-07-03")));
  ((s_ "address"), (JObj [((s_ "text"), (JStr (s_ "Another street 36, Another City, Another Country")))]))]))]));
  ((s_ "maintainer"), (JStr (s_ "alice")))]).

(** test_cases/general/array/fails/invalid_types/schema.json *)
Definition schema_general_array_fails_invalid_types : jval :=
  (JObj [((s_ "name"), (JStr (s_ "Some_graph")));
  ((s_ "description"), (JStr (s_ "defines some object graph.")));
  ((s_ "cpp"), (JObj [((s_ "namespace"), (JStr (s_ "some::graph")));
  ((s_ "path_as"), (JStr (s_ "boost::filesystem::path")));
  ((s_ "optional_as"), (JStr (s_ "boost::optional")));
  ((s_ "datetime_library"), (JStr (s_ "ctime")))]));
  ((s_ "go"), (JObj [((s_ "package"), (JStr (s_ "somegraph")))]));
  ((s_ "py"), (JObj [((s_ "module_name"), (JStr (s_ "some.graph")));
  ((s_ "path_as"), (JStr (s_ "pathlib.Path")));
  ((s_ "timezone_as"), (JStr (s_ "str")))]));
  ((s_ "properties"), (JObj [((s_ "array_of_booleans"), (JObj [((s_ "type"), (JStr (s_ "array")));
  ((s_ "description"), (JStr (s_ "tests an array of booleans.")));
  ((s_ "values"), (JObj [((s_ "type"), (JStr (s_ "boolean")))]))]))]))]).
(** test_cases/general/array/fails/invalid_types/example_fail_invalid_type.json *)
Definition value_general_array_fails_invalid_types_example_fail_invalid_type : jval :=
  (JObj [((s_ "array_of_booleans"), (JBool true))]).
(** test_cases/general/array/fails/invalid_types/example_fail_nested_invalid_type.json *)
Definition value_general_array_fails_invalid_types_example_fail_nested_invalid_type : jval :=
  (JObj [((s_ "array_of_booleans"), (JArr [(JInt (1984)%Z)]))]).

(** test_cases/general/array/maximum_size/schema.json *)
Definition schema_general_array_maximum_size : jval :=
  (JObj [((s_ "name"), (JStr (s_ "Some_graph")));
  ((s_ "description"), (JStr (s_ "defines some object graph.")));
  ((s_ "cpp"), (JObj [((s_ "namespace"), (JStr (s_ "some::graph")));
  ((s_ "path_as"), (JStr (s_ "boost::filesystem::path")));
  ((s_ "optional_as"), (JStr (s_ "boost::optional")));
  ((s_ "datetime_library"), (JStr (s_ "ctime")))]));
  ((s_ "go"), (JObj [((s_ "package"), (JStr (s_ "somegraph")))]));
  ((s_ "py"), (JObj [((s_ "module_name"), (JStr (s_ "some.graph")));
  ((s_ "path_as"), (JStr (s_ "pathlib.Path")));
  ((s_ "timezone_as"), (JStr (s_ "str")))]));
  ((s_ "properties"), (JObj [((s_ "array_of_booleans"), (JObj [((s_ "type"), (JStr (s_ "array")));
  ((s_ "description"), (JStr (s_ "tests an array of booleans.")));
  ((s_ "values"), (JObj [((s_ "type"), (JStr (s_ "boolean")))]));
  ((s_ "maximum_size"), (JInt (1)%Z))]))]))]).
(** test_cases/general/array/maximum_size/example_fail_invalid_size.json *)
Definition value_general_array_maximum_size_example_fail_invalid_size : jval :=
  (JObj [((s_ "array_of_booleans"), (JArr [(JBool true); (JBool true)]))]).
(** test_cases/general/array/maximum_size/example_ok.json *)
Definition value_general_array_maximum_size_example_ok : jval :=
  (JObj [((s_ "array_of_booleans"), (JArr [(JBool true)]))]).

(** test_cases/general/array/minimum_size/schema.json *)
Definition schema_general_array_minimum_size : jval :=
  (JObj [((s_ "name"), (JStr (s_ "Some_graph")));
  ((s_ "description"), (JStr (s_ "defines some object graph.")));
  ((s_ "cpp"), (JObj [((s_ "namespace"), (JStr (s_ "some::graph")));
  ((s_ "path_as"), (JStr (s_ "boost::filesystem::path")));
  ((s_ "optional_as"), (JStr (s_ "boost::optional")));
  ((s_ "datetime_library"), (JStr (s_ "ctime")))]));
  ((s_ "go"), (JObj [((s_ "package"), (JStr (s_ "somegraph")))]));
  ((s_ "py"), (JObj [((s_ "module_name"), (JStr (s_ "some.graph")));
  ((s_ "path_as"), (JStr (s_ "pathlib.Path")));
  ((s_ "timezone_as"), (JStr (s_ "str")))]));
  ((s_ "properties"), (JObj [((s_ "array_of_booleans"), (JObj [((s_ "type"), (JStr (s_ "array")));
  ((s_ "description"), (JStr (s_ "tests an array of booleans.")));
  ((s_ "values"), (JObj [((s_ "type"), (JStr (s_ "boolean")))]));
  ((s_ "minimum_size"), (JInt (1)%Z))]))]))]).
(** test_cases/general/array/minimum_size/example_fail_invalid_size.json *)
Definition value_general_array_minimum_size_example_fail_invalid_size : jval :=
  (JObj [((s_ "array_of_booleans"), (JArr []))]).
(** test_cases/general/array/minimum_size/example_ok.json *)
Definition value_general_array_minimum_size_example_ok : jval :=
  (JObj [((s_ "array_of_booleans"), (JArr [(JBool true)]))]).

(** test_cases/general/array/of/array/schema.json *)
Definition schema_general_array_of_array : jval :=
  (JObj [((s_ "name"), (JStr (s_ "Some_graph")));
  ((s_ "description"), (JStr (s_ "defines some object graph.")));
  ((s_ "cpp"), (JObj [((s_ "namespace"), (JStr (s_ "some::graph")));
  ((s_ "path_as"), (JStr (s_ "boost::filesystem::path")));
  ((s_ "optional_as"), (JStr (s_ "boost::optional")));
  ((s_ "datetime_library"), (JStr (s_ "ctime")))]));
  ((s_ "go"), (JObj [((s_ "package"), (JStr (s_ "somegraph")))]));
  ((s_ "py"), (JObj [((s_ "module_name"), (JStr (s_ "some.graph")));
  ((s_ "path_as"), (JStr (s_ "pathlib.Path")));
  ((s_ "timezone_as"), (JStr (s_ "str")))]));
  ((s_ "properties"), (JObj [((s_ "array_of_arrays"), (JObj [((s_ "type"), (JStr (s_ "array")));
  ((s_ "description"), (JStr (s_ "tests an array of arrays.")));
  ((s_ "values"), (JObj [((s_ "type"), (JStr (s_ "array")));
  ((s_ "values"), (JObj [((s_ "type"), (JStr (s_ "boolean")))]))]))]))]))]).
(** test_cases/general/array/of/array/example_fail_invalid_type.json *)
Definition value_general_array_of_array_example_fail_invalid_type : jval :=
  (JObj [((s_ "array_of_arrays"), (JBool true))]).
(** test_cases/general/array/of/array/example_fail_nested_error.json *)
Definition value_general_array_of_array_example_fail_nested_error : jval :=
  (JObj [((s_ "array_of_arrays"), (JArr [(JArr [(JInt (1984)%Z)])]))]).
(** test_cases/general/array/of/array/example_ok.json *)
Definition value_general_array_of_array_example_ok : jval :=
  (JObj [((s_ "array_of_arrays"), (JArr [(JArr [(JBool true)])]))]).

(** test_cases/general/array/of/boolean/schema.json *)
Definition schema_general_array_of_boolean : jval :=
  (JObj [((s_ "name"), (JStr (s_ "Some_graph")));
  ((s_ "description"), (JStr (s_ "defines some object graph.")));
  ((s_ "cpp"), (JObj [((s_ "namespace"), (JStr (s_ "some::graph")));
  ((s_ "path_as"), (JStr (s_ "boost::filesystem::path")));
  ((s_ "optional_as"), (JStr (s_ "boost::optional")));
  ((s_ "datetime_library"), (JStr (s_ "ctime")))]));
  ((s_ "go"), (JObj [((s_ "package"), (JStr (s_ "somegraph")))]));
  ((s_ "py"), (JObj [((s_ "module_name"), (JStr (s_ "some.graph")));
  ((s_ "path_as"), (JStr (s_ "pathlib.Path")));
  ((s_ "timezone_as"), (JStr (s_ "str")))]));
  ((s_ "properties"), (JObj [((s_ "array_of_booleans"), (JObj [((s_ "type"), (JStr (s_ "array")));
  ((s_ "description"), (JStr (s_ "tests an array of booleans.")));
  ((s_ "values"), (JObj [((s_ "type"), (JStr (s_ "boolean")))]))]))]))]).
(** test_cases/general/array/of/boolean/example_ok.json *)
Definition value_general_array_of_boolean_example_ok : jval :=
  (JObj [((s_ "array_of_booleans"), (JArr [(JBool true)]))]).

(** test_cases/general/array/of/class_ref/schema.json *)
Definition schema_general_array_of_class_ref : jval :=
  (JObj [((s_ "name"), (JStr (s_ "Some_graph")));
  ((s_ "description"), (JStr (s_ "defines some object graph.")));
  ((s_ "cpp"), (JObj [((s_ "namespace"), (JStr (s_ "some::graph")));
  ((s_ "path_as"), (JStr (s_ "boost::filesystem::path")));
  ((s_ "optional_as"), (JStr (s_ "boost::optional")));
  ((s_ "datetime_library"), (JStr (s_ "ctime")))]));
  ((s_ "go"), (JObj [((s_ "package"), (JStr (s_ "somegraph")))]));
  ((s_ "py"), (JObj [((s_ "module_name"), (JStr (s_ "some.graph")));
  ((s_ "path_as"), (JStr (s_ "pathlib.Path")));
  ((s_ "timezone_as"), (JStr (s_ "str")))]));
  ((s_ "classes"), (JArr [(JObj [((s_ "name"), (JStr (s_ "Empty")));
  ((s_ "description"), (JStr (s_ "defines an empty class.")))])]));
  ((s_ "properties"), (JObj [((s_ "array_of_class_refs"), (JObj [((s_ "type"), (JStr (s_ "array")));
  ((s_ "description"), (JStr (s_ "tests an array of class references.")));
  ((s_ "values"), (JObj [((s_ "type"), (JStr (s_ "Empty")))]))]))]))]).
(** test_cases/general/array/of/class_ref/example_ok.json *)
Definition value_general_array_of_class_ref_example_ok : jval :=
  (JObj [((s_ "empties"), (JObj [((s_ "some-empty"), (JObj []))]));
  ((s_ "array_of_class_refs"), (JArr [(JStr (s_ "some-empty"))]))]).

(** test_cases/general/array/of/date/schema.json *)
Definition schema_general_array_of_date : jval :=
  (JObj [((s_ "name"), (JStr (s_ "Some_graph")));
  ((s_ "description"), (JStr (s_ "defines some object graph.")));
  ((s_ "cpp"), (JObj [((s_ "namespace"), (JStr (s_ "some::graph")));
  ((s_ "path_as"), (JStr (s_ "boost::filesystem::path")));
  ((s_ "optional_as"), (JStr (s_ "boost::optional")));
  ((s_ "datetime_library"), (JStr (s_ "ctime")))]));
  ((s_ "go"), (JObj [((s_ "package"), (JStr (s_ "somegraph")))]));
  ((s_ "py"), (JObj [((s_ "module_name"), (JStr (s_ "some.graph")));
  ((s_ "path_as"), (JStr (s_ "pathlib.Path")));
  ((s_ "timezone_as"), (JStr (s_ "str")))]));
  ((s_ "properties"), (JObj [((s_ "array_of_dates"), (JObj [((s_ "type"), (JStr (s_ "array")));
  ((s_ "description"), (JStr (s_ "tests an array of dates.")));
  ((s_ "values"), (JObj [((s_ "type"), (JStr (s_ "date")))]))]))]))]).
(** test_cases/general/array/of/date/example_ok.json *)
Definition value_general_array_of_date_example_ok : jval :=
  (JObj [((s_ "array_of_dates"), (JArr [(JStr (s_ "2016-07-03"))]))]).

(** test_cases/general/array/of/datetime/schema.json *)
Definition schema_general_array_of_datetime : jval :=
  (JObj [((s_ "name"), (JStr (s_ "Some_graph")));
  ((s_ "description"), (JStr (s_ "defines some object graph.")));
  ((s_ "cpp"), (JObj [((s_ "namespace"), (JStr (s_ "some::graph")));
  ((s_ "path_as"), (JStr (s_ "boost::filesystem::path")));
  ((s_ "optional_as"), (JStr (s_ "boost::optional")));
  ((s_ "datetime_library"), (JStr (s_ "ctime")))]));
  ((s_ "go"), (JObj [((s_ "package"), (JStr (s_ "somegraph")))]));
  ((s_ "py"), (JObj [((s_ "module_name"), (JStr (s_ "some.graph")));
  ((s_ "path_as"), (JStr (s_ "pathlib.Path")));
  ((s_ "timezone_as"), (JStr (s_ "str")))]));
  ((s_ "properties"), (JObj [((s_ "array_of_datetimes"), (JObj [((s_ "type"), (JStr (s_ "array")));
  ((s_ "description"), (JStr (s_ "tests an array of datetimes.")));
  ((s_ "values"), (JObj [((s_ "type"), (JStr (s_ "datetime")))]))]))]))]).
(** test_cases/general/array/of/datetime/example_ok.json *)
Definition value_general_array_of_datetime_example_ok : jval :=
  (JObj [((s_ "array_of_datetimes"), (JArr [(JStr (s_ "2016-07-03T21:22:23Z"))]))]).

(** test_cases/general/array/of/duration/schema.json *)
Definition schema_general_array_of_duration : jval :=
  (JObj [((s_ "name"), (JStr (s_ "Some_graph")));
  ((s_ "description"), (JStr (s_ "defines some object graph.")));
  ((s_ "cpp"), (JObj [((s_ "namespace"), (JStr (s_ "some::graph")));
  ((s_ "path_as"), (JStr (s_ "boost::filesystem::path")));
  ((s_ "optional_as"), (JStr (s_ "boost::optional")));
  ((s_ "datetime_library"), (JStr (s_ "ctime")))]));
  ((s_ "go"), (JObj [((s_ "package"), (JStr (s_ "somegraph")))]));
  ((s_ "py"), (JObj [((s_ "module_name"), (JStr (s_ "some.graph")));
  ((s_ "path_as"), (JStr (s_ "pathlib.Path")));
  ((s_ "timezone_as"), (JStr (s_ "str")))]));
  ((s_ "properties"), (JObj [((s_ "array_of_durations"), (JObj [((s_ "type"), (JStr (s_ "array")));
  ((s_ "description"), (JStr (s_ "tests an array of durations.")));
  ((s_ "values"), (JObj [((s_ "type"), (JStr (s_ "duration")))]))]))]))]).
(** test_cases/general/array/of/duration/example_ok.json *)
Definition value_general_array_of_duration_example_ok : jval :=
  (JObj [((s_ "array_of_durations"), (JArr [(JStr (s_ "P1D"))]))]).

(** test_cases/general/array/of/embed/schema.json *)
Definition schema_general_array_of_embed : jval :=
  (JObj [((s_ "name"), (JStr (s_ "Some_graph")));
  ((s_ "description"), (JStr (s_ "defines some object graph.")));
  ((s_ "cpp"), (JObj [((s_ "namespace"), (JStr (s_ "some::graph")));
  ((s_ "path_as"), (JStr (s_ "boost::filesystem::path")));
  ((s_ "optional_as"), (JStr (s_ "boost::optional")));
  ((s_ "datetime_library"), (JStr (s_ "ctime")))]));
  ((s_ "go"), (JObj [((s_ "package"), (JStr (s_ "somegraph")))]));
  ((s_ "py"), (JObj [((s_ "module_name"), (JStr (s_ "some.graph")));
  ((s_ "path_as"), (JStr (s_ "pathlib.Path")));
  ((s_ "timezone_as"), (JStr (s_ "str")))]));
  ((s_ "embeds"), (JArr [(JObj [((s_ "name"), (JStr (s_ "Empty")));
  ((s_ "description"), (JStr (s_ "defines an embeddable structure without properties.")))])]));
  ((s_ "properties"), (JObj [((s_ "array_of_embeds"), (JObj [((s_ "type"), (JStr (s_ "array")));
  ((s_ "description"), (JStr (s_ "tests an array of embeddable strucures.")));
  ((s_ "values"), (JObj [((s_ "type"), (JStr (s_ "Empty")))]))]))]))]).
(** test_cases/general/array/of/embed/example_ok.json *)
Definition value_general_array_of_embed_example_ok : jval :=
  (JObj [((s_ "array_of_embeds"), (JArr [(JObj [])]))]).

(** test_cases/general/array/of/float/schema.json *)
Definition schema_general_array_of_float : jval :=
  (JObj [((s_ "name"), (JStr (s_ "Some_graph")));
  ((s_ "description"), (JStr (s_ "defines some object graph.")));
  ((s_ "cpp"), (JObj [((s_ "namespace"), (JStr (s_ "some::graph")));
  ((s_ "path_as"), (JStr (s_ "boost::filesystem::path")));
  ((s_ "optional_as"), (JStr (s_ "boost::optional")));
  ((s_ "datetime_library"), (JStr (s_ "ctime")))]));
  ((s_ "go"), (JObj [((s_ "package"), (JStr (s_ "somegraph")))]));
  ((s_ "py"), (JObj [((s_ "module_name"), (JStr (s_ "some.graph")));
  ((s_ "path_as"), (JStr (s_ "pathlib.Path")));
  ((s_ "timezone_as"), (JStr (s_ "str")))]));
  ((s_ "properties"), (JObj [((s_ "array_of_floats"), (JObj [((s_ "type"), (JStr (s_ "array")));
  ((s_ "description"), (JStr (s_ "tests an array of floats.")));
  ((s_ "values"), (JObj [((s_ "type"), (JStr (s_ "float")))]))]))]))]).
(** test_cases/general/array/of/float/example_ok.json *)
Definition value_general_array_of_float_example_ok : jval :=
  (JObj [((s_ "array_of_floats"), (JArr [(JFloat (S754_finite false 4953959590107546 (-52)%Z))]))]).

(** test_cases/general/array/of/integer/schema.json *)
Definition schema_general_array_of_integer : jval :=
  (JObj [((s_ "name"), (JStr (s_ "Some_graph")));
  ((s_ "description"), (JStr (s_ "defines some object graph.")));
  ((s_ "cpp"), (JObj [((s_ "namespace"), (JStr (s_ "some::graph")));
  ((s_ "path_as"), (JStr (s_ "boost::filesystem::path")));
  ((s_ "optional_as"), (JStr (s_ "boost::optional")));
  ((s_ "datetime_library"), (JStr (s_ "ctime")))]));
  ((s_ "go"), (JObj [((s_ "package"), (JStr (s_ "somegraph")))]));
  ((s_ "py"), (JObj [((s_ "module_name"), (JStr (s_ "some.graph")));
  ((s_ "path_as"), (JStr (s_ "pathlib.Path")));
  ((s_ "timezone_as"), (JStr (s_ "str")))]));
  ((s_ "properties"), (JObj [((s_ "array_of_integers"), (JObj [((s_ "type"), (JStr (s_ "array")));
  ((s_ "description"), (JStr (s_ "tests an array of integers.")));
  ((s_ "values"), (JObj [((s_ "type"), (JStr (s_ "integer")))]))]))]))]).
(** test_cases/general/array/of/integer/example_ok.json *)
Definition value_general_array_of_integer_example_ok : jval :=
  (JObj [((s_ "array_of_integers"), (JArr [(JInt (1984)%Z)]))]).

(** test_cases/general/array/of/map/schema.json *)
Definition schema_general_array_of_map : jval :=
  (JObj [((s_ "name"), (JStr (s_ "Some_graph")));
  ((s_ "description"), (JStr (s_ "defines some object graph.")));
  ((s_ "cpp"), (JObj [((s_ "namespace"), (JStr (s_ "some::graph")));
  ((s_ "path_as"), (JStr (s_ "boost::filesystem::path")));
  ((s_ "optional_as"), (JStr (s_ "boost::optional")));
  ((s_ "datetime_library"), (JStr (s_ "ctime")))]));
  ((s_ "go"), (JObj [((s_ "package"), (JStr (s_ "somegraph")))]));
  ((s_ "py"), (JObj [((s_ "module_name"), (JStr (s_ "some.graph")));
  ((s_ "path_as"), (JStr (s_ "pathlib.Path")));
  ((s_ "timezone_as"), (JStr (s_ "str")))]));
  ((s_ "properties"), (JObj [((s_ "array_of_maps"), (JObj [((s_ "type"), (JStr (s_ "array")));
  ((s_ "description"), (JStr (s_ "tests an array of maps.")));
  ((s_ "values"), (JObj [((s_ "type"), (JStr (s_ "map")));
  ((s_ "values"), (JObj [((s_ "type"), (JStr (s_ "boolean")))]))]))]))]))]).
(** test_cases/general/array/of/map/example_ok.json *)
Definition value_general_array_of_map_example_ok : jval :=
  (JObj [((s_ "array_of_maps"), (JArr [(JObj [((s_ "some-key"), (JBool true))])]))]).

(** test_cases/general/array/of/path/schema.json *)
Definition schema_general_array_of_path : jval :=
  (JObj [((s_ "name"), (JStr (s_ "Some_graph")));
  ((s_ "description"), (JStr (s_ "defines some object graph.")));
  ((s_ "cpp"), (JObj [((s_ "namespace"), (JStr (s_ "some::graph")));
  ((s_ "path_as"), (JStr (s_ "boost::filesystem::path")));
  ((s_ "optional_as"), (JStr (s_ "boost::optional")));
  ((s_ "datetime_library"), (JStr (s_ "ctime")))]));
  ((s_ "go"), (JObj [((s_ "package"), (JStr (s_ "somegraph")))]));
  ((s_ "py"), (JObj [((s_ "module_name"), (JStr (s_ "some.graph")));
  ((s_ "path_as"), (JStr (s_ "pathlib.Path")));
  ((s_ "timezone_as"), (JStr (s_ "str")))]));
  ((s_ "properties"), (JObj [((s_ "array_of_paths"), (JObj [((s_ "type"), (JStr (s_ "array")));
  ((s_ "description"), (JStr (s_ "tests an array of paths.")));
  ((s_ "values"), (JObj [((s_ "type"), (JStr (s_ "path")))]))]))]))]).
(** test_cases/general/array/of/path/example_ok.json *)
Definition value_general_array_of_path_example_ok : jval :=
  (JObj [((s_ "array_of_paths"), (JArr [(JStr (s_ "/some/path"))]))]).

(** test_cases/general/array/of/string/schema.json *)
Definition schema_general_array_of_string : jval :=
  (JObj [((s_ "name"), (JStr (s_ "Some_graph")));
  ((s_ "description"), (JStr (s_ "defines some object graph.")));
  ((s_ "cpp"), (JObj [((s_ "namespace"), (JStr (s_ "some::graph")));
  ((s_ "path_as"), (JStr (s_ "boost::filesystem::path")));
  ((s_ "optional_as"), (JStr (s_ "boost::optional")));
  ((s_ "datetime_library"), (JStr (s_ "ctime")))]));
  ((s_ "go"), (JObj [((s_ "package"), (JStr (s_ "somegraph")))]));
  ((s_ "py"), (JObj [((s_ "module_name"), (JStr (s_ "some.graph")));
  ((s_ "path_as"), (JStr (s_ "pathlib.Path")));
  ((s_ "timezone_as"), (JStr (s_ "str")))]));
  ((s_ "properties"), (JObj [((s_ "array_of_strings"), (JObj [((s_ "type"), (JStr (s_ "array")));
  ((s_ "description"), (JStr (s_ "tests an array of strings.")));
  ((s_ "values"), (JObj [((s_ "type"), (JStr (s_ "string")))]))]))]))]).
(** test_cases/general/array/of/string/example_ok.json *)
Definition value_general_array_of_string_example_ok : jval :=
  (JObj [((s_ "array_of_strings"), (JArr [(JStr (s_ "some string"))]))]).

(** test_cases/general/array/of/time/schema.json *)
Definition schema_general_array_of_time : jval :=
  (JObj [((s_ "name"), (JStr (s_ "Some_graph")));
  ((s_ "description"), (JStr (s_ "defines some object graph.")));
  ((s_ "cpp"), (JObj [((s_ "namespace"), (JStr (s_ "some::graph")));
  ((s_ "path_as"), (JStr (s_ "boost::filesystem::path")));
  ((s_ "optional_as"), (JStr (s_ "boost::optional")));
  ((s_ "datetime_library"), (JStr (s_ "ctime")))]));
  ((s_ "go"), (JObj [((s_ "package"), (JStr (s_ "somegraph")))]));
  ((s_ "py"), (JObj [((s_ "module_name"), (JStr (s_ "some.graph")));
  ((s_ "path_as"), (JStr (s_ "pathlib.Path")));
  ((s_ "timezone_as"), (JStr (s_ "str")))]));
  ((s_ "properties"), (JObj [((s_ "array_of_times"), (JObj [((s_ "type"), (JStr (s_ "array")));
  ((s_ "description"), (JStr (s_ "tests an array of times.")));
  ((s_ "values"), (JObj [((s_ "type"), (JStr (s_ "time")))]))]))]))]).
(** test_cases/general/array/of/time/example_ok.json *)
Definition value_general_array_of_time_example_ok : jval :=
  (JObj [((s_ "array_of_times"), (JArr [(JStr (s_ "21:22:23"))]))]).

(** test_cases/general/array/of/time_zone/schema.json *)
Definition schema_general_array_of_time_zone : jval :=
  (JObj [((s_ "name"), (JStr (s_ "Some_graph")));
  ((s_ "description"), (JStr (s_ "defines some object graph.")));
  ((s_ "cpp"), (JObj [((s_ "namespace"), (JStr (s_ "some::graph")));
  ((s_ "path_as"), (JStr (s_ "boost::filesystem::path")));
  ((s_ "optional_as"), (JStr (s_ "boost::optional")));
  ((s_ "datetime_library"), (JStr (s_ "ctime")))]));
  ((s_ "go"), (JObj [((s_ "package"), (JStr (s_ "somegraph")))]));
  ((s_ "py"), (JObj [((s_ "module_name"), (JStr (s_ "some.graph")));
  ((s_ "path_as"), (JStr (s_ "pathlib.Path")));
  ((s_ "timezone_as"), (JStr (s_ "str")))]));
  ((s_ "properties"), (JObj [((s_ "array_of_time_zones"), (JObj [((s_ "type"), (JStr (s_ "array")));
  ((s_ "description"), (JStr (s_ "tests an array of time zones.")));
  ((s_ "values"), (JObj [((s_ "type"), (JStr (s_ "time_zone")))]))]))]))]).
(** test_cases/general/array/of/time_zone/example_ok.json *)
Definition value_general_array_of_time_zone_example_ok : jval :=
  (JObj [((s_ "array_of_time_zones"), (JArr [(JStr (s_ "Europe/Zurich"))]))]).

(** test_cases/general/class/schema.json *)
Definition schema_general_class : jval :=
  (JObj [((s_ "name"), (JStr (s_ "Some_graph")));
  ((s_ "description"), (JStr (s_ "defines some object graph.")));
  ((s_ "cpp"), (JObj [((s_ "namespace"), (JStr (s_ "some::graph")));
  ((s_ "path_as"), (JStr (s_ "boost::filesystem::path")));
  ((s_ "optional_as"), (JStr (s_ "boost::optional")));
  ((s_ "datetime_library"), (JStr (s_ "ctime")))]));
  ((s_ "go"), (JObj [((s_ "package"), (JStr (s_ "somegraph")))]));
  ((s_ "py"), (JObj [((s_ "module_name"), (JStr (s_ "some.graph")));
  ((s_ "path_as"), (JStr (s_ "pathlib.Path")));
  ((s_ "timezone_as"), (JStr (s_ "str")))]));
  ((s_ "classes"), (JArr [(JObj [((s_ "name"), (JStr (s_ "Empty")));
  ((s_ "description"), (JStr (s_ "defines an empty class.")));
  ((s_ "id_pattern"), (JStr (s_ "^[a-zA-Z_\-][a-zA-Z_0-9\-]*$")))]); (JObj [((s_ "name"), (JStr (s_ "With_reference")));
  ((s_ "description"), (JStr (s_ "defines a class with a reference.")));
  ((s_ "properties"), (JObj [((s_ "reference_to_an_empty"), (JObj [((s_ "type"), (JStr (s_ "Empty")));
  ((s_ "description"), (JStr (s_ "references an Empty.")))]));
  ((s_ "array_of_empties"), (JObj [((s_ "type"), (JStr (s_ "array")));
  ((s_ "description"), (JStr (s_ "lists empties.")));
  ((s_ "values"), (JObj [((s_ "type"), (JStr (s_ "Empty")))]))]));
  ((s_ "map_of_empties"), (JObj [((s_ "type"), (JStr (s_ "map")));
  ((s_ "description"), (JStr (s_ "maps strings to empties.")));
  ((s_ "values"), (JObj [((s_ "type"), (JStr (s_ "Empty")))]))]))]))])]));
  ((s_ "properties"), (JObj [((s_ "global_reference_to_an_empty"), (JObj [((s_ "type"), (JStr (s_ "Empty")));
  ((s_ "description"), (JStr (s_ "points to an empty.")))]))]))]).
(** test_cases/general/class/example_fail_dangling_reference.json *)
Definition value_general_class_example_fail_dangling_reference : jval :=
  (JObj [((s_ "empties"), (JObj [((s_ "an-instance-of-empty"), (JObj []))]));
  ((s_ "with_references"), (JObj [((s_ "an-instance-of-with-reference"), (JObj [((s_ "reference_to_an_empty"), (JStr (s_ "an-instance-of-empty")));
  ((s_ "array_of_empties"), (JArr [(JStr (s_ "an-instance-of-empty"))]));
  ((s_ "map_of_empties"), (JObj [((s_ "some-key"), (JStr (s_ "an-instance-of-empty")))]))]))]));
  ((s_ "global_reference_to_an_empty"), (JStr (s_ "a-non-existing-instance-of-empty")))]).
(** test_cases/general/class/example_fail_error_in_instance.json *)
Definition value_general_class_example_fail_error_in_instance : jval :=
  (JObj [((s_ "empties"), (JObj [((s_ "an-instance-of-empty"), (JObj []))]));
  ((s_ "with_references"), (JObj [((s_ "an-instance-of-with-reference"), (JObj [((s_ "reference_to_an_empty"), (JInt (32)%Z));
  ((s_ "array_of_empties"), (JArr [(JStr (s_ "an-instance-of-empty"))]));
  ((s_ "map_of_empties"), (JObj [((s_ "some-key"), (JStr (s_ "an-instance-of-empty")))]))]))]));
  ((s_ "global_reference_to_an_empty"), (JStr (s_ "an-instance-of-empty")))]).
(** test_cases/general/class/example_fail_invalid_instance_id.json *)
Definition value_general_class_example_fail_invalid_instance_id : jval :=
  (JObj [((s_ "empties"), (JObj [((s_ "an/instance/of/empty"), (JObj []))]));
  ((s_ "global_reference_to_an_empty"), (JStr (s_ "an/instance/of/empty")))]).
(** test_cases/general/class/example_fail_invalid_type_of_class_registry.json *)
Definition value_general_class_example_fail_invalid_type_of_class_registry : jval :=
  (JObj [((s_ "empties"), (JObj [((s_ "an-instance-of-empty"), (JObj []))]));
  ((s_ "with_references"), (JArr []));
  ((s_ "global_reference_to_an_empty"), (JStr (s_ "an-instance-of-empty")))]).
(** test_cases/general/class/example_fail_invalid_type_of_instance.json *)
Definition value_general_class_example_fail_invalid_type_of_instance : jval :=
  (JObj [((s_ "empties"), (JObj [((s_ "an-instance-of-empty"), (JInt (3)%Z))]));
  ((s_ "global_reference_to_an_empty"), (JStr (s_ "an-instance-of-empty")))]).
(** test_cases/general/class/example_fail_invalid_type_of_reference.json *)
Definition value_general_class_example_fail_invalid_type_of_reference : jval :=
  (JObj [((s_ "empties"), (JObj [((s_ "an-instance-of-empty"), (JObj []))]));
  ((s_ "global_reference_to_an_empty"), (JInt (32)%Z))]).
(** test_cases/general/class/example_ok.json *)
Definition value_general_class_example_ok : jval :=
  (JObj [((s_ "empties"), (JObj [((s_ "an-instance-of-empty"), (JObj []))]));
  ((s_ "with_references"), (JObj [((s_ "an-instance-of-with-reference"), (JObj [((s_ "reference_to_an_empty"), (JStr (s_ "an-instance-of-empty")));
  ((s_ "array_of_empties"), (JArr [(JStr (s_ "an-instance-of-empty"))]));
  ((s_ "map_of_empties"), (JObj [((s_ "some-key"), (JStr (s_ "an-instance-of-empty")))]))]))]));
  ((s_ "global_reference_to_an_empty"), (JStr (s_ "an-instance-of-empty")))]).
(** test_cases/general/class/example_ok_missing_registry.json *)
Definition value_general_class_example_ok_missing_registry : jval :=
  (JObj [((s_ "empties"), (JObj [((s_ "an-instance-of-empty"), (JObj []))]));
  ((s_ "global_reference_to_an_empty"), (JStr (s_ "an-instance-of-empty")))]).

(** test_cases/general/class_ref_in_embed/schema.json *)
Definition schema_general_class_ref_in_embed : jval :=
  (JObj [((s_ "name"), (JStr (s_ "Some_graph")));
  ((s_ "description"), (JStr (s_ "defines some object graph.")));
  ((s_ "cpp"), (JObj [((s_ "namespace"), (JStr (s_ "some::graph")));
  ((s_ "path_as"), (JStr (s_ "boost::filesystem::path")));
  ((s_ "optional_as"), (JStr (s_ "boost::optional")));
  ((s_ "datetime_library"), (JStr (s_ "ctime")))]));
  ((s_ "go"), (JObj [((s_ "package"), (JStr (s_ "somegraph")))]));
  ((s_ "py"), (JObj [((s_ "module_name"), (JStr (s_ "some.graph")));
  ((s_ "path_as"), (JStr (s_ "pathlib.Path")));
  ((s_ "timezone_as"), (JStr (s_ "str")))]));
  ((s_ "classes"), (JArr [(JObj [((s_ "name"), (JStr (s_ "Empty")));
  ((s_ "description"), (JStr (s_ "defines an empty class.")))])]));
  ((s_ "embeds"), (JArr [(JObj [((s_ "name"), (JStr (s_ "Embed_with_ref")));
  ((s_ "description"), (JStr (s_ "defines an embeddable structure with a class reference.")));
  ((s_ "properties"), (JObj [((s_ "reference_to_empty"), (JObj [((s_ "type"), (JStr (s_ "Empty")));
  ((s_ "description"), (JStr (s_ "defines a property.")))]))]))])]));
  ((s_ "properties"), (JObj [((s_ "some_embed"), (JObj [((s_ "type"), (JStr (s_ "Embed_with_ref")));
  ((s_ "description"), (JStr (s_ "defines a property of a graph as an embedding.")))]))]))]).
(** test_cases/general/class_ref_in_embed/example_ok.json *)
Definition value_general_class_ref_in_embed_example_ok : jval :=
  (JObj [((s_ "empties"), (JObj [((s_ "an-instance-of-empty"), (JObj []))]));
  ((s_ "some_embed"), (JObj [((s_ "reference_to_empty"), (JStr (s_ "an-instance-of-empty")))]))]).

(** test_cases/general/embed/schema.json *)
Definition schema_general_embed : jval :=
  (JObj [((s_ "name"), (JStr (s_ "Some_graph")));
  ((s_ "description"), (JStr (s_ "defines some object graph.")));
  ((s_ "cpp"), (JObj [((s_ "namespace"), (JStr (s_ "some::graph")));
  ((s_ "path_as"), (JStr (s_ "boost::filesystem::path")));
  ((s_ "optional_as"), (JStr (s_ "boost::optional")));
  ((s_ "datetime_library"), (JStr (s_ "ctime")))]));
  ((s_ "go"), (JObj [((s_ "package"), (JStr (s_ "somegraph")))]));
  ((s_ "py"), (JObj [((s_ "module_name"), (JStr (s_ "some.graph")));
  ((s_ "path_as"), (JStr (s_ "pathlib.Path")));
  ((s_ "timezone_as"), (JStr (s_ "str")))]));
  ((s_ "embeds"), (JArr [(JObj [((s_ "name"), (JStr (s_ "Empty")));
  ((s_ "description"), (JStr (s_ "defines an embeddable structure without properties.")))]); (JObj [((s_ "name"), (JStr (s_ "Non_empty")));
  ((s_ "description"), (JStr (s_ "defines some embeddable structure with properties.")));
  ((s_ "properties"), (JObj [((s_ "empty"), (JObj [((s_ "type"), (JStr (s_ "Empty")));
  ((s_ "description"), (JStr (s_ "defines a property.")))]))]))])]));
  ((s_ "properties"), (JObj [((s_ "some_embed"), (JObj [((s_ "type"), (JStr (s_ "Non_empty")));
  ((s_ "description"), (JStr (s_ "defines a property of a graph as an embedding.")))]))]))]).
(** test_cases/general/embed/example_fail_invalid_property.json *)
Definition value_general_embed_example_fail_invalid_property : jval :=
  (JObj [((s_ "some_embed"), (JObj [((s_ "empty"), (JInt (3)%Z))]))]).
(** test_cases/general/embed/example_fail_invalid_type.json *)
Definition value_general_embed_example_fail_invalid_type : jval :=
  (JObj [((s_ "some_embed"), (JInt (3)%Z))]).
(** test_cases/general/embed/example_ok.json *)
Definition value_general_embed_example_ok : jval :=
  (JObj [((s_ "some_embed"), (JObj [((s_ "empty"), (JObj []))]))]).

(** test_cases/general/forward_declaration/schema.json *)
Definition schema_general_forward_declaration : jval :=
  (JObj [((s_ "name"), (JStr (s_ "Some_graph")));
  ((s_ "description"), (JStr (s_ "defines some object graph.")));
  ((s_ "cpp"), (JObj [((s_ "namespace"), (JStr (s_ "some::graph")));
  ((s_ "path_as"), (JStr (s_ "boost::filesystem::path")));
  ((s_ "optional_as"), (JStr (s_ "boost::optional")));
  ((s_ "datetime_library"), (JStr (s_ "ctime")))]));
  ((s_ "go"), (JObj [((s_ "package"), (JStr (s_ "somegraph")))]));
  ((s_ "py"), (JObj [((s_ "module_name"), (JStr (s_ "some.graph")));
  ((s_ "path_as"), (JStr (s_ "pathlib.Path")));
  ((s_ "timezone_as"), (JStr (s_ "str")))]));
  ((s_ "classes"), (JArr [(JObj [((s_ "name"), (JStr (s_ "Some_class")));
  ((s_ "description"), (JStr (s_ "defines a class referencing the other class.")));
  ((s_ "properties"), (JObj [((s_ "reference_other"), (JObj [((s_ "type"), (JStr (s_ "Other_class")));
  ((s_ "description"), (JStr (s_ "references other class.")))]));
  ((s_ "array_of_others"), (JObj [((s_ "type"), (JStr (s_ "array")));
  ((s_ "description"), (JStr (s_ "lists instances of other class.")));
  ((s_ "values"), (JObj [((s_ "type"), (JStr (s_ "Other_class")))]))]));
  ((s_ "map_of_others"), (JObj [((s_ "type"), (JStr (s_ "map")));
  ((s_ "description"), (JStr (s_ "maps strings to instances of other class.")));
  ((s_ "values"), (JObj [((s_ "type"), (JStr (s_ "Other_class")))]))]))]))]); (JObj [((s_ "name"), (JStr (s_ "Other_class")));
  ((s_ "description"), (JStr (s_ "defines a class with a reference to the some class.")));
  ((s_ "properties"), (JObj [((s_ "reference_some"), (JObj [((s_ "type"), (JStr (s_ "Some_class")));
  ((s_ "description"), (JStr (s_ "references some class.")))]));
  ((s_ "array_of_somes"), (JObj [((s_ "type"), (JStr (s_ "array")));
  ((s_ "description"), (JStr (s_ "lists instances of some class.")));
  ((s_ "values"), (JObj [((s_ "type"), (JStr (s_ "Some_class")))]))]));
  ((s_ "map_of_somes"), (JObj [((s_ "type"), (JStr (s_ "map")));
  ((s_ "description"), (JStr (s_ "maps strings to instances of some class.")));
  ((s_ "values"), (JObj [((s_ "type"), (JStr (s_ "Some_class")))]))]))]))])]));
  ((s_ "properties"), (JObj []))]).

(** test_cases/general/json_property/schema.json *)
Definition schema_general_json_property : jval :=
  (JObj [((s_ "name"), (JStr (s_ "Some_graph")));
  ((s_ "description"), (JStr (s_ "defines some object graph.")));
  ((s_ "cpp"), (JObj [((s_ "namespace"), (JStr (s_ "some::graph")));
  ((s_ "path_as"), (JStr (s_ "boost::filesystem::path")));
  ((s_ "optional_as"), (JStr (s_ "boost::optional")));
  ((s_ "datetime_library"), (JStr (s_ "ctime")))]));
  ((s_ "go"), (JObj [((s_ "package"), (JStr (s_ "somegraph")))]));
  ((s_ "py"), (JObj [((s_ "module_name"), (JStr (s_ "some.graph")));
  ((s_ "path_as"), (JStr (s_ "pathlib.Path")));
  ((s_ "timezone_as"), (JStr (s_ "str")))]));
  ((s_ "properties"), (JObj [((s_ "some_bool"), (JObj [((s_ "type"), (JStr (s_ "boolean")));
  ((s_ "description"), (JStr (s_ "defines some boolean.")));
  ((s_ "json"), (JStr (s_ "SOME-BOOL")))]))]))]).
(** test_cases/general/json_property/example_fail_missing_property.json *)
Definition value_general_json_property_example_fail_missing_property : jval :=
  (JObj [((s_ "some_bool"), (JBool true))]).
(** test_cases/general/json_property/example_ok.json *)
Definition value_general_json_property_example_ok : jval :=
  (JObj [((s_ "SOME-BOOL"), (JBool true))]).

(** test_cases/general/map/invalid_type/schema.json *)
Definition schema_general_map_invalid_type : jval :=
  (JObj [((s_ "name"), (JStr (s_ "Some_graph")));
  ((s_ "description"), (JStr (s_ "defines some object graph.")));
  ((s_ "cpp"), (JObj [((s_ "namespace"), (JStr (s_ "some::graph")));
  ((s_ "path_as"), (JStr (s_ "boost::filesystem::path")));
  ((s_ "optional_as"), (JStr (s_ "boost::optional")));
  ((s_ "datetime_library"), (JStr (s_ "ctime")))]));
  ((s_ "go"), (JObj [((s_ "package"), (JStr (s_ "somegraph")))]));
  ((s_ "py"), (JObj [((s_ "module_name"), (JStr (s_ "some.graph")));
  ((s_ "path_as"), (JStr (s_ "pathlib.Path")));
  ((s_ "timezone_as"), (JStr (s_ "str")))]));
  ((s_ "properties"), (JObj [((s_ "map_of_booleans"), (JObj [((s_ "type"), (JStr (s_ "map")));
  ((s_ "description"), (JStr (s_ "tests a map of booleans.")));
  ((s_ "values"), (JObj [((s_ "type"), (JStr (s_ "boolean")))]))]))]))]).
(** test_cases/general/map/invalid_type/example_invalid_type.json *)
Definition value_general_map_invalid_type_example_invalid_type : jval :=
  (JObj [((s_ "map_of_booleans"), (JInt (3)%Z))]).

(** test_cases/general/map/of/array/schema.json *)
Definition schema_general_map_of_array : jval :=
  (JObj [((s_ "name"), (JStr (s_ "Some_graph")));
  ((s_ "description"), (JStr (s_ "defines some object graph.")));
  ((s_ "cpp"), (JObj [((s_ "namespace"), (JStr (s_ "some::graph")));
  ((s_ "path_as"), (JStr (s_ "boost::filesystem::path")));
  ((s_ "optional_as"), (JStr (s_ "boost::optional")));
  ((s_ "datetime_library"), (JStr (s_ "ctime")))]));
  ((s_ "go"), (JObj [((s_ "package"), (JStr (s_ "somegraph")))]));
  ((s_ "py"), (JObj [((s_ "module_name"), (JStr (s_ "some.graph")));
  ((s_ "path_as"), (JStr (s_ "pathlib.Path")));
  ((s_ "timezone_as"), (JStr (s_ "str")))]));
  ((s_ "properties"), (JObj [((s_ "map_of_arrays"), (JObj [((s_ "type"), (JStr (s_ "map")));
  ((s_ "description"), (JStr (s_ "tests a map of arrays.")));
  ((s_ "values"), (JObj [((s_ "type"), (JStr (s_ "array")));
  ((s_ "values"), (JObj [((s_ "type"), (JStr (s_ "boolean")))]))]))]))]))]).
(** test_cases/general/map/of/array/example_invalid_nested_type.json *)
Definition value_general_map_of_array_example_invalid_nested_type : jval :=
  (JObj [((s_ "map_of_arrays"), (JObj [((s_ "some_key"), (JArr [(JInt (3)%Z)]))]))]).
(** test_cases/general/map/of/array/example_invalid_type.json *)
Definition value_general_map_of_array_example_invalid_type : jval :=
  (JObj [((s_ "map_of_arrays"), (JObj [((s_ "some_key"), (JInt (3)%Z))]))]).
(** test_cases/general/map/of/array/example_ok.json *)
Definition value_general_map_of_array_example_ok : jval :=
  (JObj [((s_ "map_of_arrays"), (JObj [((s_ "some_key"), (JArr [(JBool true)]))]))]).

(** test_cases/general/map/of/boolean/schema.json *)
Definition schema_general_map_of_boolean : jval :=
  (JObj [((s_ "name"), (JStr (s_ "Some_graph")));
  ((s_ "description"), (JStr (s_ "defines some object graph.")));
  ((s_ "cpp"), (JObj [((s_ "namespace"), (JStr (s_ "some::graph")));
  ((s_ "path_as"), (JStr (s_ "boost::filesystem::path")));
  ((s_ "optional_as"), (JStr (s_ "boost::optional")));
  ((s_ "datetime_library"), (JStr (s_ "ctime")))]));
  ((s_ "go"), (JObj [((s_ "package"), (JStr (s_ "somegraph")))]));
  ((s_ "py"), (JObj [((s_ "module_name"), (JStr (s_ "some.graph")));
  ((s_ "path_as"), (JStr (s_ "pathlib.Path")));
  ((s_ "timezone_as"), (JStr (s_ "str")))]));
  ((s_ "properties"), (JObj [((s_ "map_of_booleans"), (JObj [((s_ "type"), (JStr (s_ "map")));
  ((s_ "description"), (JStr (s_ "tests a map of booleans.")));
  ((s_ "values"), (JObj [((s_ "type"), (JStr (s_ "boolean")))]))]))]))]).
(** test_cases/general/map/of/boolean/example_invalid_value_type.json *)
Definition value_general_map_of_boolean_example_invalid_value_type : jval :=
  (JObj [((s_ "map_of_booleans"), (JObj [((s_ "some_key"), (JInt (3)%Z))]))]).
(** test_cases/general/map/of/boolean/example_ok.json *)
Definition value_general_map_of_boolean_example_ok : jval :=
  (JObj [((s_ "map_of_booleans"), (JObj [((s_ "some_key"), (JBool true))]))]).

(** test_cases/general/map/of/class_ref/schema.json *)
Definition schema_general_map_of_class_ref : jval :=
  (JObj [((s_ "name"), (JStr (s_ "Some_graph")));
  ((s_ "description"), (JStr (s_ "defines some object graph.")));
  ((s_ "cpp"), (JObj [((s_ "namespace"), (JStr (s_ "some::graph")));
  ((s_ "path_as"), (JStr (s_ "boost::filesystem::path")));
  ((s_ "optional_as"), (JStr (s_ "boost::optional")));
  ((s_ "datetime_library"), (JStr (s_ "ctime")))]));
  ((s_ "go"), (JObj [((s_ "package"), (JStr (s_ "somegraph")))]));
  ((s_ "py"), (JObj [((s_ "module_name"), (JStr (s_ "some.graph")));
  ((s_ "path_as"), (JStr (s_ "pathlib.Path")));
  ((s_ "timezone_as"), (JStr (s_ "str")))]));
  ((s_ "classes"), (JArr [(JObj [((s_ "name"), (JStr (s_ "Empty")));
  ((s_ "description"), (JStr (s_ "defines an empty class.")))])]));
  ((s_ "properties"), (JObj [((s_ "map_of_class_refs"), (JObj [((s_ "type"), (JStr (s_ "map")));
  ((s_ "description"), (JStr (s_ "tests a map of class references.")));
  ((s_ "values"), (JObj [((s_ "type"), (JStr (s_ "Empty")))]))]))]))]).
(** test_cases/general/map/of/class_ref/example_invalid_reference.json *)
Definition value_general_map_of_class_ref_example_invalid_reference : jval :=
  (JObj [((s_ "empties"), (JObj [((s_ "some-empty"), (JObj []))]));
  ((s_ "map_of_class_refs"), (JObj [((s_ "some-key"), (JStr (s_ "some-non-existing-empty")))]))]).
(** test_cases/general/map/of/class_ref/example_invalid_type.json *)
Definition value_general_map_of_class_ref_example_invalid_type : jval :=
  (JObj [((s_ "empties"), (JObj [((s_ "some-empty"), (JObj []))]));
  ((s_ "map_of_class_refs"), (JObj [((s_ "some-key"), (JInt (3)%Z))]))]).
(** test_cases/general/map/of/class_ref/example_ok.json *)
Definition value_general_map_of_class_ref_example_ok : jval :=
  (JObj [((s_ "empties"), (JObj [((s_ "some-empty"), (JObj []))]));
  ((s_ "map_of_class_refs"), (JObj [((s_ "some-key"), (JStr (s_ "some-empty")))]))]).

(** test_cases/general/map/of/date/schema.json *)
Definition schema_general_map_of_date : jval :=
  (JObj [((s_ "name"), (JStr (s_ "Some_graph")));
  ((s_ "description"), (JStr (s_ "defines some object graph.")));
  ((s_ "cpp"), (JObj [((s_ "namespace"), (JStr (s_ "some::graph")));
  ((s_ "path_as"), (JStr (s_ "boost::filesystem::path")));
  ((s_ "optional_as"), (JStr (s_ "boost::optional")));
  ((s_ "datetime_library"), (JStr (s_ "ctime")))]));
  ((s_ "go"), (JObj [((s_ "package"), (JStr (s_ "somegraph")))]));
  ((s_ "py"), (JObj [((s_ "module_name"), (JStr (s_ "some.graph")));
  ((s_ "path_as"), (JStr (s_ "pathlib.Path")));
  ((s_ "timezone_as"), (JStr (s_ "str")))]));
  ((s_ "properties"), (JObj [((s_ "map_of_dates"), (JObj [((s_ "type"), (JStr (s_ "map")));
  ((s_ "description"), (JStr (s_ "tests a map of dates.")));
  ((s_ "values"), (JObj [((s_ "type"), (JStr (s_ "date")))]))]))]))]).
(** test_cases/general/map/of/date/example_fail_invalid_format.json *)
Definition value_general_map_of_date_example_fail_invalid_format : jval :=
  (JObj [((s_ "map_of_dates"), (JObj [((s_ "some_key"), (JStr (s_ "2016/07/03")))]))]).
(** test_cases/general/map/of/date/example_ok.json *)
Definition value_general_map_of_date_example_ok : jval :=
  (JObj [((s_ "map_of_dates"), (JObj [((s_ "some_key"), (JStr (s_ "2016-07-03")))]))]).

(** test_cases/general/map/of/datetime/schema.json *)
Definition schema_general_map_of_datetime : jval :=
  (JObj [((s_ "name"), (JStr (s_ "Some_graph")));
  ((s_ "description"), (JStr (s_ "defines some object graph.")));
  ((s_ "cpp"), (JObj [((s_ "namespace"), (JStr (s_ "some::graph")));
  ((s_ "path_as"), (JStr (s_ "boost::filesystem::path")));
  ((s_ "optional_as"), (JStr (s_ "boost::optional")));
  ((s_ "datetime_library"), (JStr (s_ "ctime")))]));
  ((s_ "go"), (JObj [((s_ "package"), (JStr (s_ "somegraph")))]));
  ((s_ "py"), (JObj [((s_ "module_name"), (JStr (s_ "some.graph")));
  ((s_ "path_as"), (JStr (s_ "pathlib.Path")));
  ((s_ "timezone_as"), (JStr (s_ "str")))]));
  ((s_ "properties"), (JObj [((s_ "map_of_datetimes"), (JObj [((s_ "type"), (JStr (s_ "map")));
  ((s_ "description"), (JStr (s_ "tests a map of datetimes.")));
  ((s_ "values"), (JObj [((s_ "type"), (JStr (s_ "datetime")))]))]))]))]).
(** test_cases/general/map/of/datetime/example_fail_invalid_format.json *)
Definition value_general_map_of_datetime_example_fail_invalid_format : jval :=
  (JObj [((s_ "map_of_datetimes"), (JObj [((s_ "some_key"), (JStr (s_ "2016/07/03 21-22-23")))]))]).
(** test_cases/general/map/of/datetime/example_ok.json *)
Definition value_general_map_of_datetime_example_ok : jval :=
  (JObj [((s_ "map_of_datetimes"), (JObj [((s_ "some_key"), (JStr (s_ "2016-07-03T21:22:23Z")))]))]).

(** test_cases/general/map/of/duration/schema.json *)
Definition schema_general_map_of_duration : jval :=
  (JObj [((s_ "name"), (JStr (s_ "Some_graph")));
  ((s_ "description"), (JStr (s_ "defines some object graph.")));
  ((s_ "cpp"), (JObj [((s_ "namespace"), (JStr (s_ "some::graph")));
  ((s_ "path_as"), (JStr (s_ "boost::filesystem::path")));
  ((s_ "optional_as"), (JStr (s_ "boost::optional")));
  ((s_ "datetime_library"), (JStr (s_ "ctime")))]));
  ((s_ "go"), (JObj [((s_ "package"), (JStr (s_ "somegraph")))]));
  ((s_ "py"), (JObj [((s_ "module_name"), (JStr (s_ "some.graph")));
  ((s_ "path_as"), (JStr (s_ "pathlib.Path")));
  ((s_ "timezone_as"), (JStr (s_ "str")))]));
  ((s_ "properties"), (JObj [((s_ "map_of_durations"), (JObj [((s_ "type"), (JStr (s_ "map")));
  ((s_ "description"), (JStr (s_ "tests a map of durations.")));
  ((s_ "values"), (JObj [((s_ "type"), (JStr (s_ "duration")))]))]))]))]).
(** test_cases/general/map/of/duration/example_ok.json *)
Definition value_general_map_of_duration_example_ok : jval :=
  (JObj [((s_ "map_of_durations"), (JObj [((s_ "some-key"), (JStr (s_ "P1D")))]))]).

(** test_cases/general/map/of/embed/schema.json *)
Definition schema_general_map_of_embed : jval :=
  (JObj [((s_ "name"), (JStr (s_ "Some_graph")));
  ((s_ "description"), (JStr (s_ "defines some object graph.")));
  ((s_ "cpp"), (JObj [((s_ "namespace"), (JStr (s_ "some::graph")));
  ((s_ "path_as"), (JStr (s_ "boost::filesystem::path")));
  ((s_ "optional_as"), (JStr (s_ "boost::optional")));
  ((s_ "datetime_library"), (JStr (s_ "ctime")))]));
  ((s_ "go"), (JObj [((s_ "package"), (JStr (s_ "somegraph")))]));
  ((s_ "py"), (JObj [((s_ "module_name"), (JStr (s_ "some.graph")));
  ((s_ "path_as"), (JStr (s_ "pathlib.Path")));
  ((s_ "timezone_as"), (JStr (s_ "str")))]));
  ((s_ "embeds"), (JArr [(JObj [((s_ "name"), (JStr (s_ "SomeEmbed")));
  ((s_ "description"), (JStr (s_ "defines an embeddable structure.")));
  ((s_ "properties"), (JObj [((s_ "some_property"), (JObj [((s_ "type"), (JStr (s_ "boolean")));
  ((s_ "description"), (JStr (s_ "defines a boolean property.")))]))]))])]));
  ((s_ "properties"), (JObj [((s_ "map_of_embeds"), (JObj [((s_ "type"), (JStr (s_ "map")));
  ((s_ "description"), (JStr (s_ "tests a map of embeddable structures.")));
  ((s_ "values"), (JObj [((s_ "type"), (JStr (s_ "SomeEmbed")))]))]))]))]).
(** test_cases/general/map/of/embed/example_invalid_property_in_embed.json *)
Definition value_general_map_of_embed_example_invalid_property_in_embed : jval :=
  (JObj [((s_ "map_of_embeds"), (JObj [((s_ "some-key"), (JObj [((s_ "some_property"), (JInt (3)%Z))]))]))]).
(** test_cases/general/map/of/embed/example_invalid_type.json *)
Definition value_general_map_of_embed_example_invalid_type : jval :=
  (JObj [((s_ "map_of_embeds"), (JObj [((s_ "some-key"), (JInt (3)%Z))]))]).
(** test_cases/general/map/of/embed/example_ok.json *)
Definition value_general_map_of_embed_example_ok : jval :=
  (JObj [((s_ "map_of_embeds"), (JObj [((s_ "some-key"), (JObj [((s_ "some_property"), (JBool true))]))]))]).

(** test_cases/general/map/of/float/schema.json *)
Definition schema_general_map_of_float : jval :=
  (JObj [((s_ "name"), (JStr (s_ "Some_graph")));
  ((s_ "description"), (JStr (s_ "defines some object graph.")));
  ((s_ "cpp"), (JObj [((s_ "namespace"), (JStr (s_ "some::graph")));
  ((s_ "path_as"), (JStr (s_ "boost::filesystem::path")));
  ((s_ "optional_as"), (JStr (s_ "boost::optional")));
  ((s_ "datetime_library"), (JStr (s_ "ctime")))]));
  ((s_ "go"), (JObj [((s_ "package"), (JStr (s_ "somegraph")))]));
  ((s_ "py"), (JObj [((s_ "module_name"), (JStr (s_ "some.graph")));
  ((s_ "path_as"), (JStr (s_ "pathlib.Path")));
  ((s_ "timezone_as"), (JStr (s_ "str")))]));
  ((s_ "properties"), (JObj [((s_ "map_of_floats"), (JObj [((s_ "type"), (JStr (s_ "map")));
  ((s_ "description"), (JStr (s_ "tests a map of floats.")));
  ((s_ "values"), (JObj [((s_ "type"), (JStr (s_ "float")))]))]))]))]).
(** test_cases/general/map/of/float/example_ok.json *)
Definition value_general_map_of_float_example_ok : jval :=
  (JObj [((s_ "map_of_floats"), (JObj [((s_ "some-key"), (JFloat (S754_finite false 4953959590107546 (-52)%Z)))]))]).

(** test_cases/general/map/of/integer/schema.json *)
Definition schema_general_map_of_integer : jval :=
  (JObj [((s_ "name"), (JStr (s_ "Some_graph")));
  ((s_ "description"), (JStr (s_ "defines some object graph.")));
  ((s_ "cpp"), (JObj [((s_ "namespace"), (JStr (s_ "some::graph")));
  ((s_ "path_as"), (JStr (s_ "boost::filesystem::path")));
  ((s_ "optional_as"), (JStr (s_ "boost::optional")));
  ((s_ "datetime_library"), (JStr (s_ "ctime")))]));
  ((s_ "go"), (JObj [((s_ "package"), (JStr (s_ "somegraph")))]));
  ((s_ "py"), (JObj [((s_ "module_name"), (JStr (s_ "some.graph")));
  ((s_ "path_as"), (JStr (s_ "pathlib.Path")));
  ((s_ "timezone_as"), (JStr (s_ "str")))]));
  ((s_ "properties"), (JObj [((s_ "map_of_integers"), (JObj [((s_ "type"), (JStr (s_ "map")));
  ((s_ "description"), (JStr (s_ "tests a map of integers.")));
  ((s_ "values"), (JObj [((s_ "type"), (JStr (s_ "integer")))]))]))]))]).
(** test_cases/general/map/of/integer/example_ok.json *)
Definition value_general_map_of_integer_example_ok : jval :=
  (JObj [((s_ "map_of_integers"), (JObj [((s_ "some-key"), (JInt (1984)%Z))]))]).

(** test_cases/general/map/of/map/schema.json *)
Definition schema_general_map_of_map : jval :=
  (JObj [((s_ "name"), (JStr (s_ "Some_graph")));
  ((s_ "description"), (JStr (s_ "defines some object graph.")));
  ((s_ "cpp"), (JObj [((s_ "namespace"), (JStr (s_ "some::graph")));
  ((s_ "path_as"), (JStr (s_ "boost::filesystem::path")));
  ((s_ "optional_as"), (JStr (s_ "boost::optional")));
  ((s_ "datetime_library"), (JStr (s_ "ctime")))]));
  ((s_ "go"), (JObj [((s_ "package"), (JStr (s_ "somegraph")))]));
  ((s_ "py"), (JObj [((s_ "module_name"), (JStr (s_ "some.graph")));
  ((s_ "path_as"), (JStr (s_ "pathlib.Path")));
  ((s_ "timezone_as"), (JStr (s_ "str")))]));
  ((s_ "properties"), (JObj [((s_ "map_of_maps"), (JObj [((s_ "type"), (JStr (s_ "map")));
  ((s_ "description"), (JStr (s_ "tests a map of maps.")));
  ((s_ "values"), (JObj [((s_ "type"), (JStr (s_ "map")));
  ((s_ "values"), (JObj [((s_ "type"), (JStr (s_ "boolean")))]))]))]))]))]).
(** test_cases/general/map/of/map/example_invalid_nested_type.json *)
Definition value_general_map_of_map_example_invalid_nested_type : jval :=
  (JObj [((s_ "map_of_maps"), (JObj [((s_ "some_key"), (JObj [((s_ "another_key"), (JInt (3)%Z))]))]))]).
(** test_cases/general/map/of/map/example_invalid_type.json *)
Definition value_general_map_of_map_example_invalid_type : jval :=
  (JObj [((s_ "map_of_maps"), (JObj [((s_ "some_key"), (JInt (3)%Z))]))]).
(** test_cases/general/map/of/map/example_ok.json *)
Definition value_general_map_of_map_example_ok : jval :=
  (JObj [((s_ "map_of_maps"), (JObj [((s_ "some_key"), (JObj [((s_ "another_key"), (JBool true))]))]))]).

(** test_cases/general/map/of/path/schema.json *)
Definition schema_general_map_of_path : jval :=
  (JObj [((s_ "name"), (JStr (s_ "Some_graph")));
  ((s_ "description"), (JStr (s_ "defines some object graph.")));
  ((s_ "cpp"), (JObj [((s_ "namespace"), (JStr (s_ "some::graph")));
  ((s_ "path_as"), (JStr (s_ "boost::filesystem::path")));
  ((s_ "optional_as"), (JStr (s_ "boost::optional")));
  ((s_ "datetime_library"), (JStr (s_ "ctime")))]));
  ((s_ "go"), (JObj [((s_ "package"), (JStr (s_ "somegraph")))]));
  ((s_ "py"), (JObj [((s_ "module_name"), (JStr (s_ "some.graph")));
  ((s_ "path_as"), (JStr (s_ "pathlib.Path")));
  ((s_ "timezone_as"), (JStr (s_ "str")))]));
  ((s_ "properties"), (JObj [((s_ "map_of_paths"), (JObj [((s_ "type"), (JStr (s_ "map")));
  ((s_ "description"), (JStr (s_ "tests a map of paths.")));
  ((s_ "values"), (JObj [((s_ "type"), (JStr (s_ "path")))]))]))]))]).
(** test_cases/general/map/of/path/example_ok.json *)
Definition value_general_map_of_path_example_ok : jval :=
  (JObj [((s_ "map_of_paths"), (JObj [((s_ "some-key"), (JStr (s_ "/some/path")))]))]).

(** test_cases/general/map/of/string/schema.json *)
Definition schema_general_map_of_string : jval :=
  (JObj [((s_ "name"), (JStr (s_ "Some_graph")));
  ((s_ "description"), (JStr (s_ "defines some object graph.")));
  ((s_ "cpp"), (JObj [((s_ "namespace"), (JStr (s_ "some::graph")));
  ((s_ "path_as"), (JStr (s_ "boost::filesystem::path")));
  ((s_ "optional_as"), (JStr (s_ "boost::optional")));
  ((s_ "datetime_library"), (JStr (s_ "ctime")))]));
  ((s_ "go"), (JObj [((s_ "package"), (JStr (s_ "somegraph")))]));
  ((s_ "py"), (JObj [((s_ "module_name"), (JStr (s_ "some.graph")));
  ((s_ "path_as"), (JStr (s_ "pathlib.Path")));
  ((s_ "timezone_as"), (JStr (s_ "str")))]));
  ((s_ "properties"), (JObj [((s_ "map_of_strings"), (JObj [((s_ "type"), (JStr (s_ "map")));
  ((s_ "description"), (JStr (s_ "tests a map of strings.")));
  ((s_ "values"), (JObj [((s_ "type"), (JStr (s_ "string")));
  ((s_ "pattern"), (JStr (s_ "^hello.*$")))]))]))]))]).
(** test_cases/general/map/of/string/example_fail_invalid_pattern.json *)
Definition value_general_map_of_string_example_fail_invalid_pattern : jval :=
  (JObj [((s_ "map_of_strings"), (JObj [((s_ "some_key"), (JStr (s_ "goodbye")))]))]).
(** test_cases/general/map/of/string/example_ok.json *)
Definition value_general_map_of_string_example_ok : jval :=
  (JObj [((s_ "map_of_strings"), (JObj [((s_ "some_key"), (JStr (s_ "hello")))]))]).

(** test_cases/general/map/of/time_zone/schema.json *)
Definition schema_general_map_of_time_zone : jval :=
  (JObj [((s_ "name"), (JStr (s_ "Some_graph")));
  ((s_ "description"), (JStr (s_ "defines some object graph.")));
  ((s_ "cpp"), (JObj [((s_ "namespace"), (JStr (s_ "some::graph")));
  ((s_ "path_as"), (JStr (s_ "boost::filesystem::path")));
  ((s_ "optional_as"), (JStr (s_ "boost::optional")));
  ((s_ "datetime_library"), (JStr (s_ "ctime")))]));
  ((s_ "go"), (JObj [((s_ "package"), (JStr (s_ "somegraph")))]));
  ((s_ "py"), (JObj [((s_ "module_name"), (JStr (s_ "some.graph")));
  ((s_ "path_as"), (JStr (s_ "pathlib.Path")));
  ((s_ "timezone_as"), (JStr (s_ "str")))]));
  ((s_ "properties"), (JObj [((s_ "map_of_time_zones"), (JObj [((s_ "type"), (JStr (s_ "map")));
  ((s_ "description"), (JStr (s_ "tests a map of time zones.")));
  ((s_ "values"), (JObj [((s_ "type"), (JStr (s_ "time_zone")))]))]))]))]).
(** test_cases/general/map/of/time_zone/example_ok.json *)
Definition value_general_map_of_time_zone_example_ok : jval :=
  (JObj [((s_ "map_of_time_zones"), (JObj [((s_ "some-key"), (JStr (s_ "Europe/Zurich")))]))]).

(** test_cases/general/optional_in_class/schema.json *)
Definition schema_general_optional_in_class : jval :=
  (JObj [((s_ "name"), (JStr (s_ "Some_graph")));
  ((s_ "description"), (JStr (s_ "defines some object graph.")));
  ((s_ "cpp"), (JObj [((s_ "namespace"), (JStr (s_ "some::graph")));
  ((s_ "path_as"), (JStr (s_ "boost::filesystem::path")));
  ((s_ "optional_as"), (JStr (s_ "std::experimental::optional")));
  ((s_ "datetime_library"), (JStr (s_ "ctime")))]));
  ((s_ "go"), (JObj [((s_ "package"), (JStr (s_ "somegraph")))]));
  ((s_ "py"), (JObj [((s_ "module_name"), (JStr (s_ "some.graph")));
  ((s_ "path_as"), (JStr (s_ "pathlib.Path")));
  ((s_ "timezone_as"), (JStr (s_ "str")))]));
  ((s_ "classes"), (JArr [(JObj [((s_ "name"), (JStr (s_ "With_optional")));
  ((s_ "description"), (JStr (s_ "defines a class with an optional property.")));
  ((s_ "properties"), (JObj [((s_ "some_text"), (JObj [((s_ "type"), (JStr (s_ "string")));
  ((s_ "description"), (JStr (s_ "defines an optional property.")));
  ((s_ "optional"), (JBool true))]))]))])]))]).
(** test_cases/general/optional_in_class/example_fail_invalid_type.json *)
Definition value_general_optional_in_class_example_fail_invalid_type : jval :=
  (JObj [((s_ "with_optionals"), (JObj [((s_ "some-instance"), (JObj [((s_ "some_text"), (JInt (3)%Z))]))]))]).
(** test_cases/general/optional_in_class/example_ok.json *)
Definition value_general_optional_in_class_example_ok : jval :=
  (JObj [((s_ "with_optionals"), (JObj [((s_ "some-instance"), (JObj [((s_ "some_text"), (JStr (s_ "lorem ipsum")))]))]))]).
(** test_cases/general/optional_in_class/example_ok_unspecified.json *)
Definition value_general_optional_in_class_example_ok_unspecified : jval :=
  (JObj [((s_ "with_optionals"), (JObj [((s_ "some-instance"), (JObj []))]))]).

(** test_cases/general/optional_in_embed/schema.json *)
Definition schema_general_optional_in_embed : jval :=
  (JObj [((s_ "name"), (JStr (s_ "Some_graph")));
  ((s_ "description"), (JStr (s_ "defines some object graph.")));
  ((s_ "cpp"), (JObj [((s_ "namespace"), (JStr (s_ "some::graph")));
  ((s_ "path_as"), (JStr (s_ "boost::filesystem::path")));
  ((s_ "optional_as"), (JStr (s_ "std::experimental::optional")));
  ((s_ "datetime_library"), (JStr (s_ "ctime")))]));
  ((s_ "go"), (JObj [((s_ "package"), (JStr (s_ "somegraph")))]));
  ((s_ "py"), (JObj [((s_ "module_name"), (JStr (s_ "some.graph")));
  ((s_ "path_as"), (JStr (s_ "pathlib.Path")));
  ((s_ "timezone_as"), (JStr (s_ "str")))]));
  ((s_ "embeds"), (JArr [(JObj [((s_ "name"), (JStr (s_ "With_optional")));
  ((s_ "description"), (JStr (s_ "defines an embeddable with an optional property.")));
  ((s_ "properties"), (JObj [((s_ "some_text"), (JObj [((s_ "type"), (JStr (s_ "string")));
  ((s_ "description"), (JStr (s_ "defines an optional property.")));
  ((s_ "optional"), (JBool true))]))]))])]));
  ((s_ "properties"), (JObj [((s_ "some_property"), (JObj [((s_ "type"), (JStr (s_ "With_optional")));
  ((s_ "description"), (JStr (s_ "tests an embeddable with an optional property.")))]))]))]).
(** test_cases/general/optional_in_embed/example_fail_invalid_type.json *)
Definition value_general_optional_in_embed_example_fail_invalid_type : jval :=
  (JObj [((s_ "some_property"), (JObj [((s_ "some_text"), (JInt (42)%Z))]))]).
(** test_cases/general/optional_in_embed/example_ok.json *)
Definition value_general_optional_in_embed_example_ok : jval :=
  (JObj [((s_ "some_property"), (JObj [((s_ "some_text"), (JStr (s_ "lorem ipsum")))]))]).
(** test_cases/general/optional_in_embed/example_ok_unspecified.json *)
Definition value_general_optional_in_embed_example_ok_unspecified : jval :=
  (JObj [((s_ "some_property"), (JObj []))]).

(** test_cases/general/optional_in_graph/schema.json *)
Definition schema_general_optional_in_graph : jval :=
  (JObj [((s_ "name"), (JStr (s_ "Some_graph")));
  ((s_ "description"), (JStr (s_ "defines some object graph.")));
  ((s_ "cpp"), (JObj [((s_ "namespace"), (JStr (s_ "some::graph")));
  ((s_ "path_as"), (JStr (s_ "boost::filesystem::path")));
  ((s_ "optional_as"), (JStr (s_ "std::experimental::optional")));
  ((s_ "datetime_library"), (JStr (s_ "ctime")))]));
  ((s_ "go"), (JObj [((s_ "package"), (JStr (s_ "somegraph")))]));
  ((s_ "py"), (JObj [((s_ "module_name"), (JStr (s_ "some.graph")));
  ((s_ "path_as"), (JStr (s_ "pathlib.Path")));
  ((s_ "timezone_as"), (JStr (s_ "str")))]));
  ((s_ "classes"), (JArr [(JObj [((s_ "name"), (JStr (s_ "Empty")));
  ((s_ "description"), (JStr (s_ "defines an empty class.")))])]));
  ((s_ "embeds"), (JArr [(JObj [((s_ "name"), (JStr (s_ "Some_embed")));
  ((s_ "description"), (JStr (s_ "defines an empty embeddable structure.")))])]));
  ((s_ "properties"), (JObj [((s_ "optional_array"), (JObj [((s_ "type"), (JStr (s_ "array")));
  ((s_ "description"), (JStr (s_ "defines some optional array.")));
  ((s_ "values"), (JObj [((s_ "type"), (JStr (s_ "integer")))]));
  ((s_ "optional"), (JBool true))]));
  ((s_ "optional_boolean"), (JObj [((s_ "type"), (JStr (s_ "boolean")));
  ((s_ "description"), (JStr (s_ "defines some optional boolean.")));
  ((s_ "optional"), (JBool true))]));
  ((s_ "optional_date"), (JObj [((s_ "type"), (JStr (s_ "date")));
  ((s_ "description"), (JStr (s_ "defines some optional date.")));
  ((s_ "optional"), (JBool true))]));
  ((s_ "optional_datetime"), (JObj [((s_ "type"), (JStr (s_ "datetime")));
  ((s_ "description"), (JStr (s_ "defines some optional datetime.")));
  ((s_ "optional"), (JBool true))]));
  ((s_ "optional_duration"), (JObj [((s_ "type"), (JStr (s_ "duration")));
  ((s_ "description"), (JStr (s_ "defines some optional duration.")));
  ((s_ "optional"), (JBool true))]));
  ((s_ "optional_float"), (JObj [((s_ "type"), (JStr (s_ "float")));
  ((s_ "description"), (JStr (s_ "defines some optional float.")));
  ((s_ "optional"), (JBool true))]));
  ((s_ "optional_integer"), (JObj [((s_ "type"), (JStr (s_ "integer")));
  ((s_ "description"), (JStr (s_ "defines some optional integer.")));
  ((s_ "optional"), (JBool true))]));
  ((s_ "optional_map"), (JObj [((s_ "type"), (JStr (s_ "map")));
  ((s_ "description"), (JStr (s_ "defines some optional map.")));
  ((s_ "values"), (JObj [((s_ "type"), (JStr (s_ "integer")))]));
  ((s_ "optional"), (JBool true))]));
  ((s_ "optional_path"), (JObj [((s_ "type"), (JStr (s_ "path")));
  ((s_ "description"), (JStr (s_ "defines an optional path.")));
  ((s_ "optional"), (JBool true))]));
  ((s_ "optional_string"), (JObj [((s_ "type"), (JStr (s_ "string")));
  ((s_ "description"), (JStr (s_ "defines an optional string.")));
  ((s_ "optional"), (JBool true))]));
  ((s_ "optional_time"), (JObj [((s_ "type"), (JStr (s_ "time")));
  ((s_ "description"), (JStr (s_ "defines an optional time.")));
  ((s_ "optional"), (JBool true))]));
  ((s_ "optional_time_zone"), (JObj [((s_ "type"), (JStr (s_ "time_zone")));
  ((s_ "description"), (JStr (s_ "defines an optional time zone.")));
  ((s_ "optional"), (JBool true))]));
  ((s_ "optional_reference"), (JObj [((s_ "type"), (JStr (s_ "Empty")));
  ((s_ "description"), (JStr (s_ "defines an optional reference to an instance.")));
  ((s_ "optional"), (JBool true))]));
  ((s_ "optional_embed"), (JObj [((s_ "type"), (JStr (s_ "Some_embed")));
  ((s_ "description"), (JStr (s_ "defines an optional embedded structure.")));
  ((s_ "optional"), (JBool true))]))]))]).
(** test_cases/general/optional_in_graph/example_fail_invalid_type.json *)
Definition value_general_optional_in_graph_example_fail_invalid_type : jval :=
  (JObj [((s_ "empties"), (JObj [((s_ "an_instance_of_empty"), (JObj []))]));
  ((s_ "optional_path"), (JInt (3)%Z))]).
(** test_cases/general/optional_in_graph/example_ok.json *)
Definition value_general_optional_in_graph_example_ok : jval :=
  (JObj [((s_ "empties"), (JObj [((s_ "an_instance_of_empty"), (JObj []))]));
  ((s_ "optional_array"), (JArr [(JInt (3)%Z)]));
  ((s_ "optional_boolean"), (JBool true));
  ((s_ "optional_date"), (JStr (s_ "2016-07-03")));
  ((s_ "optional_datetime"), (JStr (s_ "2016-07-03T21:22:23Z")));
  ((s_ "optional_duration"), (JStr (s_ "P1D")));
  ((s_ "optional_float"), (JFloat (S754_finite false 6980579422424269 (-45)%Z)));
  ((s_ "optional_integer"), (JInt (1984)%Z));
  ((s_ "optional_map"), (JObj [((s_ "some-key"), (JInt (3)%Z))]));
  ((s_ "optional_path"), (JStr (s_ "/some/file")));
  ((s_ "optional_string"), (JStr (s_ "some string")));
  ((s_ "optional_time"), (JStr (s_ "21:22:23")));
  ((s_ "optional_time_zone"), (JStr (s_ "Europe/Zurich")));
  ((s_ "optional_reference"), (JStr (s_ "an_instance_of_empty")));
  ((s_ "optional_embed"), (JObj []))]).
(** test_cases/general/optional_in_graph/example_ok_unspecified.json *)
Definition value_general_optional_in_graph_example_ok_unspecified : jval :=
  (JObj [((s_ "empties"), (JObj [((s_ "an-instace-of-empty"), (JObj []))]))]).

(** test_cases/general/primitive_type/boolean/schema.json *)
Definition schema_general_primitive_type_boolean : jval :=
  (JObj [((s_ "name"), (JStr (s_ "Some_graph")));
  ((s_ "description"), (JStr (s_ "defines some object graph.")));
  ((s_ "cpp"), (JObj [((s_ "namespace"), (JStr (s_ "some::graph")));
  ((s_ "path_as"), (JStr (s_ "boost::filesystem::path")));
  ((s_ "optional_as"), (JStr (s_ "boost::optional")));
  ((s_ "datetime_library"), (JStr (s_ "ctime")))]));
  ((s_ "go"), (JObj [((s_ "package"), (JStr (s_ "somegraph")))]));
  ((s_ "py"), (JObj [((s_ "module_name"), (JStr (s_ "some.graph")));
  ((s_ "path_as"), (JStr (s_ "pathlib.Path")));
  ((s_ "timezone_as"), (JStr (s_ "str")))]));
  ((s_ "properties"), (JObj [((s_ "some_bool"), (JObj [((s_ "type"), (JStr (s_ "boolean")));
  ((s_ "description"), (JStr (s_ "defines some boolean.")))]))]))]).
(** test_cases/general/primitive_type/boolean/example_fail_invalid_type.json *)
Definition value_general_primitive_type_boolean_example_fail_invalid_type : jval :=
  (JObj [((s_ "some_bool"), (JStr (s_ "true")))]).
(** test_cases/general/primitive_type/boolean/example_ok.json *)
Definition value_general_primitive_type_boolean_example_ok : jval :=
  (JObj [((s_ "some_bool"), (JBool true))]).

(** test_cases/general/primitive_type/date/schema.json *)
Definition schema_general_primitive_type_date : jval :=
  (JObj [((s_ "name"), (JStr (s_ "Some_graph")));
  ((s_ "description"), (JStr (s_ "defines some object graph.")));
  ((s_ "cpp"), (JObj [((s_ "namespace"), (JStr (s_ "some::graph")));
  ((s_ "path_as"), (JStr (s_ "boost::filesystem::path")));
  ((s_ "optional_as"), (JStr (s_ "boost::optional")));
  ((s_ "datetime_library"), (JStr (s_ "ctime")))]));
  ((s_ "go"), (JObj [((s_ "package"), (JStr (s_ "somegraph")))]));
  ((s_ "py"), (JObj [((s_ "module_name"), (JStr (s_ "some.graph")));
  ((s_ "path_as"), (JStr (s_ "pathlib.Path")));
  ((s_ "timezone_as"), (JStr (s_ "str")))]));
  ((s_ "properties"), (JObj [((s_ "some_date"), (JObj [((s_ "type"), (JStr (s_ "date")));
  ((s_ "description"), (JStr (s_ "defines some date.")));
  ((s_ "format"), (JStr (s_ "%Y/%m/%d")))]));
  ((s_ "formatless_date"), (JObj [((s_ "type"), (JStr (s_ "date")));
  ((s_ "description"), (JStr (s_ "defines some formatless date.")))]))]))]).
(** test_cases/general/primitive_type/date/example_fail_invalid_format.json *)
Definition value_general_primitive_type_date_example_fail_invalid_format : jval :=
  (JObj [((s_ "some_date"), (JStr (s_ "2016!07!03")));
  ((s_ "formatless_date"), (JStr (s_ "2016!07!03")))]).
(** test_cases/general/primitive_type/date/example_fail_invalid_type.json *)
Definition value_general_primitive_type_date_example_fail_invalid_type : jval :=
  (JObj [((s_ "some_date"), (JInt (20160703)%Z));
  ((s_ "formatless_date"), (JStr (s_ "2016-07-03")))]).
(** test_cases/general/primitive_type/date/example_ok.json *)
Definition value_general_primitive_type_date_example_ok : jval :=
  (JObj [((s_ "some_date"), (JStr (s_ "2016/07/03")));
  ((s_ "formatless_date"), (JStr (s_ "2016-07-03")))]).

(** test_cases/general/primitive_type/datetime/schema.json *)
Definition schema_general_primitive_type_datetime : jval :=
  (JObj [((s_ "name"), (JStr (s_ "Some_graph")));
  ((s_ "description"), (JStr (s_ "defines some object graph.")));
  ((s_ "cpp"), (JObj [((s_ "namespace"), (JStr (s_ "some::graph")));
  ((s_ "path_as"), (JStr (s_ "boost::filesystem::path")));
  ((s_ "optional_as"), (JStr (s_ "boost::optional")));
  ((s_ "datetime_library"), (JStr (s_ "ctime")))]));
  ((s_ "go"), (JObj [((s_ "package"), (JStr (s_ "somegraph")))]));
  ((s_ "py"), (JObj [((s_ "module_name"), (JStr (s_ "some.graph")));
  ((s_ "path_as"), (JStr (s_ "pathlib.Path")));
  ((s_ "timezone_as"), (JStr (s_ "str")))]));
  ((s_ "properties"), (JObj [((s_ "some_datetime"), (JObj [((s_ "type"), (JStr (s_ "datetime")));
  ((s_ "description"), (JStr (s_ "defines some datetime.")));
  ((s_ "format"), (JStr (s_ "%Y/%m/%d %H-%M-%SZ")))]));
  ((s_ "formatless_datetime"), (JObj [((s_ "type"), (JStr (s_ "datetime")));
  ((s_ "description"), (JStr (s_ "defines some formatless datetime.")))]))]))]).
(** test_cases/general/primitive_type/datetime/example_fail_invalid_format.json *)
Definition value_general_primitive_type_datetime_example_fail_invalid_format : jval :=
  (JObj [((s_ "some_datetime"), (JStr (s_ "2016/07/03 21-22-23Z")));
  ((s_ "formatless_datetime"), (JStr (s_ "2016.07.03 21.22.23")))]).
(** test_cases/general/primitive_type/datetime/example_fail_invalid_type.json *)
Definition value_general_primitive_type_datetime_example_fail_invalid_type : jval :=
  (JObj [((s_ "some_datetime"), (JInt (19841122)%Z));
  ((s_ "formatless_datetime"), (JStr (s_ "2016-07-03T21:22:23Z")))]).
(** test_cases/general/primitive_type/datetime/example_ok.json *)
Definition value_general_primitive_type_datetime_example_ok : jval :=
  (JObj [((s_ "some_datetime"), (JStr (s_ "2016/07/03 21-22-23Z")));
  ((s_ "formatless_datetime"), (JStr (s_ "2016-07-03T21:22:23Z")))]).

(** test_cases/general/primitive_type/duration/schema.json *)
Definition schema_general_primitive_type_duration : jval :=
  (JObj [((s_ "name"), (JStr (s_ "Some_graph")));
  ((s_ "description"), (JStr (s_ "defines some object graph.")));
  ((s_ "cpp"), (JObj [((s_ "namespace"), (JStr (s_ "some::graph")));
  ((s_ "path_as"), (JStr (s_ "boost::filesystem::path")));
  ((s_ "optional_as"), (JStr (s_ "boost::optional")));
  ((s_ "datetime_library"), (JStr (s_ "ctime")))]));
  ((s_ "go"), (JObj [((s_ "package"), (JStr (s_ "somegraph")))]));
  ((s_ "py"), (JObj [((s_ "module_name"), (JStr (s_ "some.graph")));
  ((s_ "path_as"), (JStr (s_ "pathlib.Path")));
  ((s_ "timezone_as"), (JStr (s_ "str")))]));
  ((s_ "properties"), (JObj [((s_ "some_duration"), (JObj [((s_ "type"), (JStr (s_ "duration")));
  ((s_ "description"), (JStr (s_ "defines some duration.")))]))]))]).
(** test_cases/general/primitive_type/duration/example_fail_invalid_format.json *)
Definition value_general_primitive_type_duration_example_fail_invalid_format : jval :=
  (JObj [((s_ "some_duration"), (JStr (s_ "Period1D")))]).
(** test_cases/general/primitive_type/duration/example_fail_invalid_type.json *)
Definition value_general_primitive_type_duration_example_fail_invalid_type : jval :=
  (JObj [((s_ "some_duration"), (JInt (3)%Z))]).
(** test_cases/general/primitive_type/duration/example_ok.json *)
Definition value_general_primitive_type_duration_example_ok : jval :=
  (JObj [((s_ "some_duration"), (JStr (s_ "P1DT1H1M1S")))]).
(** test_cases/general/primitive_type/duration/example_ok_all_ones.json *)
Definition value_general_primitive_type_duration_example_ok_all_ones : jval :=
  (JObj [((s_ "some_duration"), (JStr (s_ "P1Y1M1W1DT1H1M1S")))]).
(** test_cases/general/primitive_type/duration/example_ok_fractions.json *)
Definition value_general_primitive_type_duration_example_ok_fractions : jval :=
  (JObj [((s_ "some_duration"), (JStr (s_ "P1.1Y1.1M1.1W1.1DT1.1H1.1M1.1S")))]).
(** test_cases/general/primitive_type/duration/example_ok_many_years.json *)
Definition value_general_primitive_type_duration_example_ok_many_years : jval :=
  (JObj [((s_ "some_duration"), (JStr (s_ "P30Y")))]).
(** test_cases/general/primitive_type/duration/example_ok_negative_duration.json *)
Definition value_general_primitive_type_duration_example_ok_negative_duration : jval :=
  (JObj [((s_ "some_duration"), (JStr (s_ "-P1DT1H1M1S")))]).
(** test_cases/general/primitive_type/duration/example_ok_zeros_after_comma.json *)
Definition value_general_primitive_type_duration_example_ok_zeros_after_comma : jval :=
  (JObj [((s_ "some_duration"), (JStr (s_ "PT1.000S")))]).

(** test_cases/general/primitive_type/float/schema.json *)
Definition schema_general_primitive_type_float : jval :=
  (JObj [((s_ "name"), (JStr (s_ "Some_graph")));
  ((s_ "description"), (JStr (s_ "defines some object graph.")));
  ((s_ "cpp"), (JObj [((s_ "namespace"), (JStr (s_ "some::graph")));
  ((s_ "path_as"), (JStr (s_ "boost::filesystem::path")));
  ((s_ "optional_as"), (JStr (s_ "boost::optional")));
  ((s_ "datetime_library"), (JStr (s_ "ctime")))]));
  ((s_ "go"), (JObj [((s_ "package"), (JStr (s_ "somegraph")))]));
  ((s_ "py"), (JObj [((s_ "module_name"), (JStr (s_ "some.graph")));
  ((s_ "path_as"), (JStr (s_ "pathlib.Path")));
  ((s_ "timezone_as"), (JStr (s_ "str")))]));
  ((s_ "properties"), (JObj [((s_ "some_float_gt_0_lt_100"), (JObj [((s_ "type"), (JStr (s_ "float")));
  ((s_ "description"), (JStr (s_ "defines some float.")));
  ((s_ "minimum"), (JFloat (S754_zero false)));
  ((s_ "exclusive_minimum"), (JBool true));
  ((s_ "maximum"), (JFloat (S754_finite false 7036874417766400 (-46)%Z)));
  ((s_ "exclusive_maximum"), (JBool true))]));
  ((s_ "some_float_ge_0_le_100"), (JObj [((s_ "type"), (JStr (s_ "float")));
  ((s_ "description"), (JStr (s_ "defines some float.")));
  ((s_ "minimum"), (JFloat (S754_zero false)));
  ((s_ "exclusive_minimum"), (JBool false));
  ((s_ "maximum"), (JFloat (S754_finite false 7036874417766400 (-46)%Z)));
  ((s_ "exclusive_maximum"), (JBool false))]));
  ((s_ "unconstrained_float"), (JObj [((s_ "type"), (JStr (s_ "float")));
  ((s_ "description"), (JStr (s_ "defines an unconstrained float.")))]))]))]).
(** test_cases/general/primitive_type/float/example_fail_invalid_type.json *)
Definition value_general_primitive_type_float_example_fail_invalid_type : jval :=
  (JObj [((s_ "some_float_gt_0_lt_100"), (JStr (s_ "42.3")));
  ((s_ "some_float_ge_0_le_100"), (JFloat (S754_finite false 7036874417766400 (-46)%Z)));
  ((s_ "unconstrained_float"), (JFloat (S754_finite true 8727483496634778 (-42)%Z)))]).
(** test_cases/general/primitive_type/float/example_fail_out_of_ge_range.json *)
Definition value_general_primitive_type_float_example_fail_out_of_ge_range : jval :=
  (JObj [((s_ "some_float_gt_0_lt_100"), (JFloat (S754_finite false 5910974510923776 (-47)%Z)));
  ((s_ "some_float_ge_0_le_100"), (JFloat (S754_finite true 7205759403792794 (-56)%Z)));
  ((s_ "unconstrained_float"), (JFloat (S754_finite true 8727483496634778 (-42)%Z)))]).
(** test_cases/general/primitive_type/float/example_fail_out_of_gt_range.json *)
Definition value_general_primitive_type_float_example_fail_out_of_gt_range : jval :=
  (JObj [((s_ "some_float_gt_0_lt_100"), (JFloat (S754_zero true)));
  ((s_ "some_float_ge_0_le_100"), (JFloat (S754_finite false 5910974510923776 (-47)%Z)));
  ((s_ "unconstrained_float"), (JFloat (S754_finite true 8727483496634778 (-42)%Z)))]).
(** test_cases/general/primitive_type/float/example_fail_out_of_le_range.json *)
Definition value_general_primitive_type_float_example_fail_out_of_le_range : jval :=
  (JObj [((s_ "some_float_gt_0_lt_100"), (JFloat (S754_finite false 5910974510923776 (-47)%Z)));
  ((s_ "some_float_ge_0_le_100"), (JFloat (S754_finite false 7043911292184166 (-46)%Z)));
  ((s_ "unconstrained_float"), (JFloat (S754_finite true 8727483496634778 (-42)%Z)))]).
(** test_cases/general/primitive_type/float/example_fail_out_of_lt_range.json *)
Definition value_general_primitive_type_float_example_fail_out_of_lt_range : jval :=
  (JObj [((s_ "some_float_gt_0_lt_100"), (JFloat (S754_finite false 7036874417766400 (-46)%Z)));
  ((s_ "some_float_ge_0_le_100"), (JFloat (S754_finite false 5910974510923776 (-47)%Z)));
  ((s_ "unconstrained_float"), (JFloat (S754_finite true 8727483496634778 (-42)%Z)))]).
(** test_cases/general/primitive_type/float/example_ok.json *)
Definition value_general_primitive_type_float_example_ok : jval :=
  (JObj [((s_ "some_float_gt_0_lt_100"), (JFloat (S754_finite false 5953195757430374 (-47)%Z)));
  ((s_ "some_float_ge_0_le_100"), (JFloat (S754_finite false 7036874417766400 (-46)%Z)));
  ((s_ "unconstrained_float"), (JFloat (S754_finite true 8727483496634778 (-42)%Z)))]).

(** test_cases/general/primitive_type/integer/schema.json *)
Definition schema_general_primitive_type_integer : jval :=
  (JObj [((s_ "name"), (JStr (s_ "Some_graph")));
  ((s_ "description"), (JStr (s_ "defines some object graph.")));
  ((s_ "cpp"), (JObj [((s_ "namespace"), (JStr (s_ "some::graph")));
  ((s_ "path_as"), (JStr (s_ "boost::filesystem::path")));
  ((s_ "optional_as"), (JStr (s_ "boost::optional")));
  ((s_ "datetime_library"), (JStr (s_ "ctime")))]));
  ((s_ "go"), (JObj [((s_ "package"), (JStr (s_ "somegraph")))]));
  ((s_ "py"), (JObj [((s_ "module_name"), (JStr (s_ "some.graph")));
  ((s_ "path_as"), (JStr (s_ "pathlib.Path")));
  ((s_ "timezone_as"), (JStr (s_ "str")))]));
  ((s_ "properties"), (JObj [((s_ "some_int_gt_0_lt_100"), (JObj [((s_ "type"), (JStr (s_ "integer")));
  ((s_ "description"), (JStr (s_ "defines some integer.")));
  ((s_ "minimum"), (JInt (0)%Z));
  ((s_ "exclusive_minimum"), (JBool true));
  ((s_ "maximum"), (JInt (100)%Z));
  ((s_ "exclusive_maximum"), (JBool true))]));
  ((s_ "some_int_ge_0_le_100"), (JObj [((s_ "type"), (JStr (s_ "integer")));
  ((s_ "description"), (JStr (s_ "defines some integer.")));
  ((s_ "minimum"), (JInt (0)%Z));
  ((s_ "exclusive_minimum"), (JBool false));
  ((s_ "maximum"), (JInt (100)%Z));
  ((s_ "exclusive_maximum"), (JBool false))]));
  ((s_ "unconstrained_int"), (JObj [((s_ "type"), (JStr (s_ "integer")));
  ((s_ "description"), (JStr (s_ "defines some unconstrained integer.")))]))]))]).
(** test_cases/general/primitive_type/integer/example_fail_invalid_type.json *)
Definition value_general_primitive_type_integer_example_fail_invalid_type : jval :=
  (JObj [((s_ "some_int_gt_0_lt_100"), (JStr (s_ "42")));
  ((s_ "some_int_ge_0_le_100"), (JInt (100)%Z));
  ((s_ "unconstrained_int"), (JInt (-1984)%Z))]).
(** test_cases/general/primitive_type/integer/example_fail_out_of_ge_range.json *)
Definition value_general_primitive_type_integer_example_fail_out_of_ge_range : jval :=
  (JObj [((s_ "some_int_gt_0_lt_100"), (JInt (42)%Z));
  ((s_ "some_int_ge_0_le_100"), (JInt (-1)%Z));
  ((s_ "unconstrained_int"), (JInt (-1984)%Z))]).
(** test_cases/general/primitive_type/integer/example_fail_out_of_gt_range.json *)
Definition value_general_primitive_type_integer_example_fail_out_of_gt_range : jval :=
  (JObj [((s_ "some_int_gt_0_lt_100"), (JInt (0)%Z));
  ((s_ "some_int_ge_0_le_100"), (JInt (100)%Z));
  ((s_ "unconstrained_int"), (JInt (-1984)%Z))]).
(** test_cases/general/primitive_type/integer/example_fail_out_of_le_range.json *)
Definition value_general_primitive_type_integer_example_fail_out_of_le_range : jval :=
  (JObj [((s_ "some_int_gt_0_lt_100"), (JInt (42)%Z));
  ((s_ "some_int_ge_0_le_100"), (JInt (101)%Z));
  ((s_ "unconstrained_int"), (JInt (-1984)%Z))]).
(** test_cases/general/primitive_type/integer/example_fail_out_of_lt_range.json *)
Definition value_general_primitive_type_integer_example_fail_out_of_lt_range : jval :=
  (JObj [((s_ "some_int_gt_0_lt_100"), (JInt (100)%Z));
  ((s_ "some_int_ge_0_le_100"), (JInt (42)%Z));
  ((s_ "unconstrained_int"), (JInt (-1984)%Z))]).
(** test_cases/general/primitive_type/integer/example_ok.json *)
Definition value_general_primitive_type_integer_example_ok : jval :=
  (JObj [((s_ "some_int_gt_0_lt_100"), (JInt (42)%Z));
  ((s_ "some_int_ge_0_le_100"), (JInt (100)%Z));
  ((s_ "unconstrained_int"), (JInt (-1984)%Z))]).

(** test_cases/general/primitive_type/path/schema.json *)
Definition schema_general_primitive_type_path : jval :=
  (JObj [((s_ "name"), (JStr (s_ "Some_graph")));
  ((s_ "description"), (JStr (s_ "defines some object graph.")));
  ((s_ "cpp"), (JObj [((s_ "namespace"), (JStr (s_ "some::graph")));
  ((s_ "path_as"), (JStr (s_ "boost::filesystem::path")));
  ((s_ "optional_as"), (JStr (s_ "boost::optional")));
  ((s_ "datetime_library"), (JStr (s_ "ctime")))]));
  ((s_ "go"), (JObj [((s_ "package"), (JStr (s_ "somegraph")))]));
  ((s_ "py"), (JObj [((s_ "module_name"), (JStr (s_ "some.graph")));
  ((s_ "path_as"), (JStr (s_ "pathlib.Path")));
  ((s_ "timezone_as"), (JStr (s_ "str")))]));
  ((s_ "properties"), (JObj [((s_ "some_path"), (JObj [((s_ "type"), (JStr (s_ "path")));
  ((s_ "description"), (JStr (s_ "defines some path.")));
  ((s_ "pattern"), (JStr (s_ "^/[a-zA-Z]+-[0-9]+$")))]));
  ((s_ "unconstrained_path"), (JObj [((s_ "type"), (JStr (s_ "path")));
  ((s_ "description"), (JStr (s_ "defines an unconstrained path.")))]))]))]).
(** test_cases/general/primitive_type/path/example_fail_invalid_pattern.json *)
Definition value_general_primitive_type_path_example_fail_invalid_pattern : jval :=
  (JObj [((s_ "some_path"), (JStr (s_ "/!@# somefolder-123")));
  ((s_ "unconstrained_path"), (JStr [47; 33; 64; 35; 32; 115; 246; 109; 232; 32; 112; 228; 116; 104]%N))]).
(** test_cases/general/primitive_type/path/example_fail_invalid_type.json *)
Definition value_general_primitive_type_path_example_fail_invalid_type : jval :=
  (JObj [((s_ "some_path"), (JInt (3)%Z));
  ((s_ "unconstrained_path"), (JInt (3)%Z))]).
(** test_cases/general/primitive_type/path/example_ok.json *)
Definition value_general_primitive_type_path_example_ok : jval :=
  (JObj [((s_ "some_path"), (JStr (s_ "/somefolder-123")));
  ((s_ "unconstrained_path"), (JStr [47; 33; 64; 35; 32; 115; 246; 109; 232; 32; 112; 228; 116; 104]%N))]).

(** test_cases/general/primitive_type/string/schema.json *)
Definition schema_general_primitive_type_string : jval :=
  (JObj [((s_ "name"), (JStr (s_ "Some_graph")));
  ((s_ "description"), (JStr (s_ "defines some object graph.")));
  ((s_ "cpp"), (JObj [((s_ "namespace"), (JStr (s_ "some::graph")));
  ((s_ "path_as"), (JStr (s_ "boost::filesystem::path")));
  ((s_ "optional_as"), (JStr (s_ "boost::optional")));
  ((s_ "datetime_library"), (JStr (s_ "ctime")))]));
  ((s_ "go"), (JObj [((s_ "package"), (JStr (s_ "somegraph")))]));
  ((s_ "py"), (JObj [((s_ "module_name"), (JStr (s_ "some.graph")));
  ((s_ "path_as"), (JStr (s_ "pathlib.Path")));
  ((s_ "timezone_as"), (JStr (s_ "str")))]));
  ((s_ "properties"), (JObj [((s_ "some_str"), (JObj [((s_ "type"), (JStr (s_ "string")));
  ((s_ "description"), (JStr (s_ "defines some string.")));
  ((s_ "pattern"), (JStr (s_ "^[a-zA-Z]*$")))]));
  ((s_ "unconstrained_str"), (JObj [((s_ "type"), (JStr (s_ "string")));
  ((s_ "description"), (JStr (s_ "defines an unconstrained string.")))]))]))]).
(** test_cases/general/primitive_type/string/example_fail_invalid_pattern.json *)
Definition value_general_primitive_type_string_example_fail_invalid_pattern : jval :=
  (JObj [((s_ "some_str"), (JStr (s_ "some !@#$ string")));
  ((s_ "unconstrained_str"), (JStr [33; 64; 35; 36; 32; 115; 111; 109; 101; 32; 252; 110; 99; 246; 110; 115; 116; 114; 228; 105; 110; 233; 100; 32; 115; 116; 114; 110; 103]%N))]).
(** test_cases/general/primitive_type/string/example_fail_invalid_type.json *)
Definition value_general_primitive_type_string_example_fail_invalid_type : jval :=
  (JObj [((s_ "some_str"), (JInt (3)%Z));
  ((s_ "unconstrained_str"), (JInt (3)%Z))]).
(** test_cases/general/primitive_type/string/example_ok.json *)
Definition value_general_primitive_type_string_example_ok : jval :=
  (JObj [((s_ "some_str"), (JStr (s_ "somestring")));
  ((s_ "unconstrained_str"), (JStr [33; 64; 35; 36; 32; 115; 111; 109; 101; 32; 252; 110; 99; 246; 110; 115; 116; 114; 228; 105; 110; 233; 100; 32; 115; 116; 114; 110; 103]%N))]).

(** test_cases/general/primitive_type/time/schema.json *)
Definition schema_general_primitive_type_time : jval :=
  (JObj [((s_ "name"), (JStr (s_ "Some_graph")));
  ((s_ "description"), (JStr (s_ "defines some object graph.")));
  ((s_ "cpp"), (JObj [((s_ "namespace"), (JStr (s_ "some::graph")));
  ((s_ "path_as"), (JStr (s_ "boost::filesystem::path")));
  ((s_ "optional_as"), (JStr (s_ "boost::optional")));
  ((s_ "datetime_library"), (JStr (s_ "ctime")))]));
  ((s_ "go"), (JObj [((s_ "package"), (JStr (s_ "somegraph")))]));
  ((s_ "py"), (JObj [((s_ "module_name"), (JStr (s_ "some.graph")));
  ((s_ "path_as"), (JStr (s_ "pathlib.Path")));
  ((s_ "timezone_as"), (JStr (s_ "str")))]));
  ((s_ "properties"), (JObj [((s_ "some_time"), (JObj [((s_ "type"), (JStr (s_ "time")));
  ((s_ "description"), (JStr (s_ "defines some time.")));
  ((s_ "format"), (JStr (s_ "%H-%M-%S")))]));
  ((s_ "formatless_time"), (JObj [((s_ "type"), (JStr (s_ "time")));
  ((s_ "description"), (JStr (s_ "defines some formatless time.")))]))]))]).
(** test_cases/general/primitive_type/time/example_fail_invalid_format.json *)
Definition value_general_primitive_type_time_example_fail_invalid_format : jval :=
  (JObj [((s_ "some_time"), (JStr (s_ "21/22/23")));
  ((s_ "formatless_time"), (JStr (s_ "21/22/23")))]).
(** test_cases/general/primitive_type/time/example_invalid_type.json *)
Definition value_general_primitive_type_time_example_invalid_type : jval :=
  (JObj [((s_ "some_time"), (JInt (3)%Z));
  ((s_ "formatless_time"), (JStr (s_ "21:22:23")))]).
(** test_cases/general/primitive_type/time/example_ok.json *)
Definition value_general_primitive_type_time_example_ok : jval :=
  (JObj [((s_ "some_time"), (JStr (s_ "21-22-23")));
  ((s_ "formatless_time"), (JStr (s_ "21:22:23")))]).

(** test_cases/general/primitive_type/time_zone/schema.json *)
Definition schema_general_primitive_type_time_zone : jval :=
  (JObj [((s_ "name"), (JStr (s_ "Some_graph")));
  ((s_ "description"), (JStr (s_ "defines some object graph.")));
  ((s_ "cpp"), (JObj [((s_ "namespace"), (JStr (s_ "some::graph")));
  ((s_ "path_as"), (JStr (s_ "boost::filesystem::path")));
  ((s_ "optional_as"), (JStr (s_ "boost::optional")));
  ((s_ "datetime_library"), (JStr (s_ "ctime")))]));
  ((s_ "go"), (JObj [((s_ "package"), (JStr (s_ "somegraph")))]));
  ((s_ "py"), (JObj [((s_ "module_name"), (JStr (s_ "some.graph")));
  ((s_ "path_as"), (JStr (s_ "pathlib.Path")));
  ((s_ "timezone_as"), (JStr (s_ "str")))]));
  ((s_ "properties"), (JObj [((s_ "some_time_zone"), (JObj [((s_ "type"), (JStr (s_ "time_zone")));
  ((s_ "description"), (JStr (s_ "defines some time zone.")))]))]))]).
(** test_cases/general/primitive_type/time_zone/example_ok.json *)
Definition value_general_primitive_type_time_zone_example_ok : jval :=
  (JObj [((s_ "some_time_zone"), (JStr (s_ "Europe/Zurich")))]).

(** test_cases/go/primitive_types/float/schema.json *)
Definition schema_go_primitive_types_float : jval :=
  (JObj [((s_ "name"), (JStr (s_ "Some_graph")));
  ((s_ "description"), (JStr (s_ "defines some object graph.")));
  ((s_ "go"), (JObj [((s_ "package"), (JStr (s_ "somegraph")))]));
  ((s_ "properties"), (JObj [((s_ "some_float"), (JObj [((s_ "type"), (JStr (s_ "float")));
  ((s_ "description"), (JStr (s_ "defines a float.")))]))]))]).
(** test_cases/go/primitive_types/float/example_ok_lowest.json *)
Definition value_go_primitive_types_float_example_ok_lowest : jval :=
  (JObj [((s_ "some_float"), (JFloat (S754_finite true 9007199254740991 (971)%Z)))]).
(** test_cases/go/primitive_types/float/example_ok_max.json *)
Definition value_go_primitive_types_float_example_ok_max : jval :=
  (JObj [((s_ "some_float"), (JFloat (S754_finite false 9007199254740991 (971)%Z)))]).
(** test_cases/go/primitive_types/float/example_ok_min.json *)
Definition value_go_primitive_types_float_example_ok_min : jval :=
  (JObj [((s_ "some_float"), (JFloat (S754_finite false 4503599627370496 (-1074)%Z)))]).

(** test_cases/go/primitive_types/integer/schema.json *)
Definition schema_go_primitive_types_integer : jval :=
  (JObj [((s_ "name"), (JStr (s_ "Some_graph")));
  ((s_ "description"), (JStr (s_ "defines some object graph.")));
  ((s_ "go"), (JObj [((s_ "package"), (JStr (s_ "somegraph")))]));
  ((s_ "properties"), (JObj [((s_ "some_int"), (JObj [((s_ "type"), (JStr (s_ "integer")));
  ((s_ "description"), (JStr (s_ "defines an integer.")))]))]))]).
(** test_cases/go/primitive_types/integer/example_fail_fraction.json *)
Definition value_go_primitive_types_integer_example_fail_fraction : jval :=
  (JObj [((s_ "some_int"), (JFloat (S754_finite false 7205759403792794 (-51)%Z)))]).
(** test_cases/go/primitive_types/integer/example_fail_overflow_minus.json *)
Definition value_go_primitive_types_integer_example_fail_overflow_minus : jval :=
  (JObj [((s_ "some_int"), (JInt (-9223372036854777856)%Z))]).
(** test_cases/go/primitive_types/integer/example_fail_overflow_plus.json *)
Definition value_go_primitive_types_integer_example_fail_overflow_plus : jval :=
  (JObj [((s_ "some_int"), (JInt (9223372036854775808)%Z))]).
(** test_cases/go/primitive_types/integer/example_ok_max.json *)
Definition value_go_primitive_types_integer_example_ok_max : jval :=
  (JObj [((s_ "some_int"), (JInt (9007199254740992)%Z))]).
(** test_cases/go/primitive_types/integer/example_ok_min.json *)
Definition value_go_primitive_types_integer_example_ok_min : jval :=
  (JObj [((s_ "some_int"), (JInt (-9223372036854775808)%Z))]).
(** test_cases/go/primitive_types/integer/example_ok_precision_lost.json *)
Definition value_go_primitive_types_integer_example_ok_precision_lost : jval :=
  (JObj [((s_ "some_int"), (JInt (9007199254740993)%Z))]).

(** test_cases/py/primitive_types/duration/schema.json *)
Definition schema_py_primitive_types_duration : jval :=
  (JObj [((s_ "name"), (JStr (s_ "Some_graph")));
  ((s_ "description"), (JStr (s_ "defines some object graph.")));
  ((s_ "py"), (JObj [((s_ "module_name"), (JStr (s_ "some.graph")));
  ((s_ "path_as"), (JStr (s_ "pathlib.Path")));
  ((s_ "timezone_as"), (JStr (s_ "str")))]));
  ((s_ "properties"), (JObj [((s_ "some_duration"), (JObj [((s_ "type"), (JStr (s_ "duration")));
  ((s_ "description"), (JStr (s_ "defines some duration.")))]))]))]).
(** test_cases/py/primitive_types/duration/example_fail_too_many_years.json *)
Definition value_py_primitive_types_duration_example_fail_too_many_years : jval :=
  (JObj [((s_ "some_duration"), (JStr (s_ "P3000000000Y")))]).

(** test_cases/py/primitive_types/float/schema.json *)
Definition schema_py_primitive_types_float : jval :=
  (JObj [((s_ "name"), (JStr (s_ "Some_graph")));
  ((s_ "description"), (JStr (s_ "defines some object graph.")));
  ((s_ "py"), (JObj [((s_ "module_name"), (JStr (s_ "some.graph")));
  ((s_ "path_as"), (JStr (s_ "pathlib.Path")));
  ((s_ "timezone_as"), (JStr (s_ "str")))]));
  ((s_ "properties"), (JObj [((s_ "some_float"), (JObj [((s_ "type"), (JStr (s_ "float")));
  ((s_ "description"), (JStr (s_ "defines an integer.")))]))]))]).
(** test_cases/py/primitive_types/float/example_ok_big_float.json *)
Definition value_py_primitive_types_float_example_ok_big_float : jval :=
  (JObj [((s_ "some_float"), (JFloat (S754_infinity false)))]).
(** test_cases/py/primitive_types/float/example_ok_lowest.json *)
Definition value_py_primitive_types_float_example_ok_lowest : jval :=
  (JObj [((s_ "some_float"), (JFloat (S754_finite true 9007199254740991 (971)%Z)))]).
(** test_cases/py/primitive_types/float/example_ok_max.json *)
Definition value_py_primitive_types_float_example_ok_max : jval :=
  (JObj [((s_ "some_float"), (JFloat (S754_finite false 9007199254740991 (971)%Z)))]).
(** test_cases/py/primitive_types/float/example_ok_min.json *)
Definition value_py_primitive_types_float_example_ok_min : jval :=
  (JObj [((s_ "some_float"), (JFloat (S754_finite false 4503599627370496 (-1074)%Z)))]).

(** test_cases/py/primitive_types/integer/schema.json *)
Definition schema_py_primitive_types_integer : jval :=
  (JObj [((s_ "name"), (JStr (s_ "Some_graph")));
  ((s_ "description"), (JStr (s_ "defines some object graph.")));
  ((s_ "py"), (JObj [((s_ "module_name"), (JStr (s_ "some.graph")));
  ((s_ "path_as"), (JStr (s_ "pathlib.Path")));
  ((s_ "timezone_as"), (JStr (s_ "str")))]));
  ((s_ "properties"), (JObj [((s_ "some_int"), (JObj [((s_ "type"), (JStr (s_ "integer")));
  ((s_ "description"), (JStr (s_ "defines an integer.")))]))]))]).
(** test_cases/py/primitive_types/integer/example_fail_fraction.json *)
Definition value_py_primitive_types_integer_example_fail_fraction : jval :=
  (JObj [((s_ "some_int"), (JFloat (S754_finite false 7205759403792794 (-51)%Z)))]).
(** test_cases/py/primitive_types/integer/example_ok_big_int.json *)
Definition value_py_primitive_types_integer_example_ok_big_int : jval :=
  (JObj [((s_ "some_int"), (JInt (9223372036854775808)%Z))]).

(** test_cases/py/timezone_as_pytz_timezone/schema.json *)
Definition schema_py_timezone_as_pytz_timezone : jval :=
  (JObj [((s_ "name"), (JStr (s_ "Some_graph")));
  ((s_ "description"), (JStr (s_ "defines some object graph.")));
  ((s_ "py"), (JObj [((s_ "module_name"), (JStr (s_ "some.graph")));
  ((s_ "path_as"), (JStr (s_ "pathlib.Path")));
  ((s_ "timezone_as"), (JStr (s_ "pytz.timezone")))]));
  ((s_ "properties"), (JObj [((s_ "some_time_zone"), (JObj [((s_ "type"), (JStr (s_ "time_zone")));
  ((s_ "description"), (JStr (s_ "defines some time zone.")))]))]))]).
(** test_cases/py/timezone_as_pytz_timezone/example_fail_invalid_timezone.json *)
Definition value_py_timezone_as_pytz_timezone_example_fail_invalid_timezone : jval :=
  (JObj [((s_ "some_time_zone"), (JStr (s_ "Singidunum/Taurunum")))]).
(** test_cases/py/timezone_as_pytz_timezone/example_ok.json *)
Definition value_py_timezone_as_pytz_timezone_example_ok : jval :=
  (JObj [((s_ "some_time_zone"), (JStr (s_ "Europe/Zurich")))]).

Definition py_cases : list (tables * jval * jval * expected) := [
((Tables [] [TimeRow (s_ "%Y-%m-%d") (s_ "1983-10-24") (Dt (1983)%Z (10)%Z (24)%Z (0)%Z (0)%Z (0)%Z (0)%Z None) (s_ "1983-10-24");
  TimeRow (s_ "%Y-%m-%d") (s_ "2016-07-03") (Dt (2016)%Z (7)%Z (3)%Z (0)%Z (0)%Z (0)%Z (0)%Z None) (s_ "2016-07-03")] []),
  schema_docs_schema_introductory_example, value_docs_schema_introductory_example_example_ok,
  ExpValue (JObj [((s_ "maintainer"), (JStr (s_ "alice")));
  ((s_ "persons"), (JObj [((s_ "alice"), (JObj [((s_ "full_name"), (JStr (s_ "Alice Doe")));
  ((s_ "birthday"), (JStr (s_ "1983-10-24")));
  ((s_ "address"), (JObj [((s_ "text"), (JStr (s_ "Some street 12, Some City, Some Country")))]))]));
  ((s_ "bob"), (JObj [((s_ "full_name"), (JStr (s_ "Bob Johnson")));
  ((s_ "birthday"), (JStr (s_ "2016-07-03")));
  ((s_ "address"), (JObj [((s_ "text"), (JStr (s_ "Another street 36, Another City, Another Country")))]))]))]))]));
((Tables [] [] []),
  schema_general_array_fails_invalid_types, value_general_array_fails_invalid_types_example_fail_invalid_type,
  ExpErrors [(s_ "#/array_of_booleans: Expected a list, but got: <class 'bool'>")]);
((Tables [] [] []),
  schema_general_array_fails_invalid_types, value_general_array_fails_invalid_types_example_fail_nested_invalid_type,
  ExpErrors [(s_ "#/array_of_booleans/0: Expected a bool, but got: <class 'int'>")]);
((Tables [] [] []),
  schema_general_array_maximum_size, value_general_array_maximum_size_example_fail_invalid_size,
  ExpErrors [(s_ "#/array_of_booleans: Expected a list of maximum size 1, but got size: 2")]);
((Tables [] [] []),
  schema_general_array_maximum_size, value_general_array_maximum_size_example_ok,
  ExpValue (JObj [((s_ "array_of_booleans"), (JArr [(JBool true)]))]));
((Tables [] [] []),
  schema_general_array_minimum_size, value_general_array_minimum_size_example_fail_invalid_size,
  ExpErrors [(s_ "#/array_of_booleans: Expected a list of minimum size 1, but got size: 0")]);
((Tables [] [] []),
  schema_general_array_minimum_size, value_general_array_minimum_size_example_ok,
  ExpValue (JObj [((s_ "array_of_booleans"), (JArr [(JBool true)]))]));
((Tables [] [] []),
  schema_general_array_of_array, value_general_array_of_array_example_fail_invalid_type,
  ExpErrors [(s_ "#/array_of_arrays: Expected a list, but got: <class 'bool'>")]);
((Tables [] [] []),
  schema_general_array_of_array, value_general_array_of_array_example_fail_nested_error,
  ExpErrors [(s_ "#/array_of_arrays/0/0: Expected a bool, but got: <class 'int'>")]);
((Tables [] [] []),
  schema_general_array_of_array, value_general_array_of_array_example_ok,
  ExpValue (JObj [((s_ "array_of_arrays"), (JArr [(JArr [(JBool true)])]))]));
((Tables [] [] []),
  schema_general_array_of_boolean, value_general_array_of_boolean_example_ok,
  ExpValue (JObj [((s_ "array_of_booleans"), (JArr [(JBool true)]))]));
((Tables [] [] []),
  schema_general_array_of_class_ref, value_general_array_of_class_ref_example_ok,
  ExpValue (JObj [((s_ "array_of_class_refs"), (JArr [(JStr (s_ "some-empty"))]));
  ((s_ "empties"), (JObj [((s_ "some-empty"), (JObj []))]))]));
((Tables [] [TimeRow (s_ "%Y-%m-%d") (s_ "2016-07-03") (Dt (2016)%Z (7)%Z (3)%Z (0)%Z (0)%Z (0)%Z (0)%Z None) (s_ "2016-07-03")] []),
  schema_general_array_of_date, value_general_array_of_date_example_ok,
  ExpValue (JObj [((s_ "array_of_dates"), (JArr [(JStr (s_ "2016-07-03"))]))]));
((Tables [] [TimeRow (s_ "%Y-%m-%dT%H:%M:%SZ") (s_ "2016-07-03T21:22:23Z") (Dt (2016)%Z (7)%Z (3)%Z (21)%Z (22)%Z (23)%Z (0)%Z None) (s_ "2016-07-03T21:22:23Z")] []),
  schema_general_array_of_datetime, value_general_array_of_datetime_example_ok,
  ExpValue (JObj [((s_ "array_of_datetimes"), (JArr [(JStr (s_ "2016-07-03T21:22:23Z"))]))]));
((Tables [] [] []),
  schema_general_array_of_duration, value_general_array_of_duration_example_ok,
  ExpValue (JObj [((s_ "array_of_durations"), (JArr [(JStr (s_ "P1D"))]))]));
((Tables [] [] []),
  schema_general_array_of_embed, value_general_array_of_embed_example_ok,
  ExpValue (JObj [((s_ "array_of_embeds"), (JArr [(JObj [])]))]));
((Tables [] [] []),
  schema_general_array_of_float, value_general_array_of_float_example_ok,
  ExpValue (JObj [((s_ "array_of_floats"), (JArr [(JFloat (S754_finite false 4953959590107546 (-52)%Z))]))]));
((Tables [] [] []),
  schema_general_array_of_integer, value_general_array_of_integer_example_ok,
  ExpValue (JObj [((s_ "array_of_integers"), (JArr [(JInt (1984)%Z)]))]));
((Tables [] [] []),
  schema_general_array_of_map, value_general_array_of_map_example_ok,
  ExpValue (JObj [((s_ "array_of_maps"), (JArr [(JObj [((s_ "some-key"), (JBool true))])]))]));
((Tables [] [] []),
  schema_general_array_of_path, value_general_array_of_path_example_ok,
  ExpValue (JObj [((s_ "array_of_paths"), (JArr [(JStr (s_ "/some/path"))]))]));
((Tables [] [] []),
  schema_general_array_of_string, value_general_array_of_string_example_ok,
  ExpValue (JObj [((s_ "array_of_strings"), (JArr [(JStr (s_ "some string"))]))]));
((Tables [] [TimeRow (s_ "%H:%M:%S") (s_ "21:22:23") (Dt (1900)%Z (1)%Z (1)%Z (21)%Z (22)%Z (23)%Z (0)%Z None) (s_ "21:22:23")] []),
  schema_general_array_of_time, value_general_array_of_time_example_ok,
  ExpValue (JObj [((s_ "array_of_times"), (JArr [(JStr (s_ "21:22:23"))]))]));
((Tables [] [] []),
  schema_general_array_of_time_zone, value_general_array_of_time_zone_example_ok,
  ExpValue (JObj [((s_ "array_of_time_zones"), (JArr [(JStr (s_ "Europe/Zurich"))]))]));
((Tables [((s_ "^[a-zA-Z_\-][a-zA-Z_0-9\-]*$"), (s_ "a-non-existing-instance-of-empty")); ((s_ "^[a-zA-Z_\-][a-zA-Z_0-9\-]*$"), (s_ "an-instance-of-empty")); ((s_ "^[a-zA-Z_\-][a-zA-Z_0-9\-]*$"), (s_ "an-instance-of-with-reference")); ((s_ "^[a-zA-Z_\-][a-zA-Z_0-9\-]*$"), (s_ "array_of_empties")); ((s_ "^[a-zA-Z_\-][a-zA-Z_0-9\-]*$"), (s_ "empties")); ((s_ "^[a-zA-Z_\-][a-zA-Z_0-9\-]*$"), (s_ "global_reference_to_an_empty")); ((s_ "^[a-zA-Z_\-][a-zA-Z_0-9\-]*$"), (s_ "map_of_empties")); ((s_ "^[a-zA-Z_\-][a-zA-Z_0-9\-]*$"), (s_ "reference_to_an_empty")); ((s_ "^[a-zA-Z_\-][a-zA-Z_0-9\-]*$"), (s_ "some-key")); ((s_ "^[a-zA-Z_\-][a-zA-Z_0-9\-]*$"), (s_ "with_references"))] [] []),
  schema_general_class, value_general_class_example_fail_dangling_reference,
  ExpErrors [(s_ "#/global_reference_to_an_empty: Reference to an instance of class Empty not found: a-non-existing-instance-of-empty")]);
((Tables [((s_ "^[a-zA-Z_\-][a-zA-Z_0-9\-]*$"), (s_ "an-instance-of-empty")); ((s_ "^[a-zA-Z_\-][a-zA-Z_0-9\-]*$"), (s_ "an-instance-of-with-reference")); ((s_ "^[a-zA-Z_\-][a-zA-Z_0-9\-]*$"), (s_ "array_of_empties")); ((s_ "^[a-zA-Z_\-][a-zA-Z_0-9\-]*$"), (s_ "empties")); ((s_ "^[a-zA-Z_\-][a-zA-Z_0-9\-]*$"), (s_ "global_reference_to_an_empty")); ((s_ "^[a-zA-Z_\-][a-zA-Z_0-9\-]*$"), (s_ "map_of_empties")); ((s_ "^[a-zA-Z_\-][a-zA-Z_0-9\-]*$"), (s_ "reference_to_an_empty")); ((s_ "^[a-zA-Z_\-][a-zA-Z_0-9\-]*$"), (s_ "some-key")); ((s_ "^[a-zA-Z_\-][a-zA-Z_0-9\-]*$"), (s_ "with_references"))] [] []),
  schema_general_class, value_general_class_example_fail_error_in_instance,
  ExpErrors [(s_ "#/with_references/'an-instance-of-with-reference'/reference_to_an_empty: Expected a str, but got: <class 'int'>")]);
((Tables [((s_ "^[a-zA-Z_\-][a-zA-Z_0-9\-]*$"), (s_ "empties")); ((s_ "^[a-zA-Z_\-][a-zA-Z_0-9\-]*$"), (s_ "global_reference_to_an_empty"))] [] []),
  schema_general_class, value_general_class_example_fail_invalid_instance_id,
  ExpErrors [(s_ "#/empties: Expected ID to match ^[a-zA-Z_\-][a-zA-Z_0-9\-]*$, but got: an/instance/of/empty")]);
((Tables [((s_ "^[a-zA-Z_\-][a-zA-Z_0-9\-]*$"), (s_ "an-instance-of-empty")); ((s_ "^[a-zA-Z_\-][a-zA-Z_0-9\-]*$"), (s_ "empties")); ((s_ "^[a-zA-Z_\-][a-zA-Z_0-9\-]*$"), (s_ "global_reference_to_an_empty")); ((s_ "^[a-zA-Z_\-][a-zA-Z_0-9\-]*$"), (s_ "with_references"))] [] []),
  schema_general_class, value_general_class_example_fail_invalid_type_of_class_registry,
  ExpErrors [(s_ "#/with_references: Expected a dictionary, but got: <class 'list'>")]);
((Tables [((s_ "^[a-zA-Z_\-][a-zA-Z_0-9\-]*$"), (s_ "an-instance-of-empty")); ((s_ "^[a-zA-Z_\-][a-zA-Z_0-9\-]*$"), (s_ "empties")); ((s_ "^[a-zA-Z_\-][a-zA-Z_0-9\-]*$"), (s_ "global_reference_to_an_empty"))] [] []),
  schema_general_class, value_general_class_example_fail_invalid_type_of_instance,
  ExpErrors [(s_ "#/empties/'an-instance-of-empty': Expected a dictionary, but got: <class 'int'>")]);
((Tables [((s_ "^[a-zA-Z_\-][a-zA-Z_0-9\-]*$"), (s_ "an-instance-of-empty")); ((s_ "^[a-zA-Z_\-][a-zA-Z_0-9\-]*$"), (s_ "empties")); ((s_ "^[a-zA-Z_\-][a-zA-Z_0-9\-]*$"), (s_ "global_reference_to_an_empty"))] [] []),
  schema_general_class, value_general_class_example_fail_invalid_type_of_reference,
  ExpErrors [(s_ "#/global_reference_to_an_empty: Expected a str, but got: <class 'int'>")]);
((Tables [((s_ "^[a-zA-Z_\-][a-zA-Z_0-9\-]*$"), (s_ "an-instance-of-empty")); ((s_ "^[a-zA-Z_\-][a-zA-Z_0-9\-]*$"), (s_ "an-instance-of-with-reference")); ((s_ "^[a-zA-Z_\-][a-zA-Z_0-9\-]*$"), (s_ "array_of_empties")); ((s_ "^[a-zA-Z_\-][a-zA-Z_0-9\-]*$"), (s_ "empties")); ((s_ "^[a-zA-Z_\-][a-zA-Z_0-9\-]*$"), (s_ "global_reference_to_an_empty")); ((s_ "^[a-zA-Z_\-][a-zA-Z_0-9\-]*$"), (s_ "map_of_empties")); ((s_ "^[a-zA-Z_\-][a-zA-Z_0-9\-]*$"), (s_ "reference_to_an_empty")); ((s_ "^[a-zA-Z_\-][a-zA-Z_0-9\-]*$"), (s_ "some-key")); ((s_ "^[a-zA-Z_\-][a-zA-Z_0-9\-]*$"), (s_ "with_references"))] [] []),
  schema_general_class, value_general_class_example_ok,
  ExpValue (JObj [((s_ "global_reference_to_an_empty"), (JStr (s_ "an-instance-of-empty")));
  ((s_ "empties"), (JObj [((s_ "an-instance-of-empty"), (JObj []))]));
  ((s_ "with_references"), (JObj [((s_ "an-instance-of-with-reference"), (JObj [((s_ "reference_to_an_empty"), (JStr (s_ "an-instance-of-empty")));
  ((s_ "array_of_empties"), (JArr [(JStr (s_ "an-instance-of-empty"))]));
  ((s_ "map_of_empties"), (JObj [((s_ "some-key"), (JStr (s_ "an-instance-of-empty")))]))]))]))]));
((Tables [((s_ "^[a-zA-Z_\-][a-zA-Z_0-9\-]*$"), (s_ "an-instance-of-empty")); ((s_ "^[a-zA-Z_\-][a-zA-Z_0-9\-]*$"), (s_ "empties")); ((s_ "^[a-zA-Z_\-][a-zA-Z_0-9\-]*$"), (s_ "global_reference_to_an_empty"))] [] []),
  schema_general_class, value_general_class_example_ok_missing_registry,
  ExpValue (JObj [((s_ "global_reference_to_an_empty"), (JStr (s_ "an-instance-of-empty")));
  ((s_ "empties"), (JObj [((s_ "an-instance-of-empty"), (JObj []))]))]));
((Tables [] [] []),
  schema_general_class_ref_in_embed, value_general_class_ref_in_embed_example_ok,
  ExpValue (JObj [((s_ "some_embed"), (JObj [((s_ "reference_to_empty"), (JStr (s_ "an-instance-of-empty")))]));
  ((s_ "empties"), (JObj [((s_ "an-instance-of-empty"), (JObj []))]))]));
((Tables [] [] []),
  schema_general_embed, value_general_embed_example_fail_invalid_property,
  ExpErrors [(s_ "#/some_embed/empty: Expected a dictionary, but got: <class 'int'>")]);
((Tables [] [] []),
  schema_general_embed, value_general_embed_example_fail_invalid_type,
  ExpErrors [(s_ "#/some_embed: Expected a dictionary, but got: <class 'int'>")]);
((Tables [] [] []),
  schema_general_embed, value_general_embed_example_ok,
  ExpValue (JObj [((s_ "some_embed"), (JObj [((s_ "empty"), (JObj []))]))]));
((Tables [] [] []),
  schema_general_json_property, value_general_json_property_example_fail_missing_property,
  ExpErrors [(s_ "#: Property is missing: SOME-BOOL")]);
((Tables [] [] []),
  schema_general_json_property, value_general_json_property_example_ok,
  ExpValue (JObj [((s_ "SOME-BOOL"), (JBool true))]));
((Tables [] [] []),
  schema_general_map_invalid_type, value_general_map_invalid_type_example_invalid_type,
  ExpErrors [(s_ "#/map_of_booleans: Expected a dict, but got: <class 'int'>")]);
((Tables [] [] []),
  schema_general_map_of_array, value_general_map_of_array_example_invalid_nested_type,
  ExpErrors [(s_ "#/map_of_arrays/'some_key'/0: Expected a bool, but got: <class 'int'>")]);
((Tables [] [] []),
  schema_general_map_of_array, value_general_map_of_array_example_invalid_type,
  ExpErrors [(s_ "#/map_of_arrays/'some_key': Expected a list, but got: <class 'int'>")]);
((Tables [] [] []),
  schema_general_map_of_array, value_general_map_of_array_example_ok,
  ExpValue (JObj [((s_ "map_of_arrays"), (JObj [((s_ "some_key"), (JArr [(JBool true)]))]))]));
((Tables [] [] []),
  schema_general_map_of_boolean, value_general_map_of_boolean_example_invalid_value_type,
  ExpErrors [(s_ "#/map_of_booleans/'some_key': Expected a bool, but got: <class 'int'>")]);
((Tables [] [] []),
  schema_general_map_of_boolean, value_general_map_of_boolean_example_ok,
  ExpValue (JObj [((s_ "map_of_booleans"), (JObj [((s_ "some_key"), (JBool true))]))]));
((Tables [] [] []),
  schema_general_map_of_class_ref, value_general_map_of_class_ref_example_invalid_reference,
  ExpErrors [(s_ "#/map_of_class_refs/'some-key': Reference to an instance of class Empty not found: some-non-existing-empty")]);
((Tables [] [] []),
  schema_general_map_of_class_ref, value_general_map_of_class_ref_example_invalid_type,
  ExpErrors [(s_ "#/map_of_class_refs/'some-key': Expected a str, but got: <class 'int'>")]);
((Tables [] [] []),
  schema_general_map_of_class_ref, value_general_map_of_class_ref_example_ok,
  ExpValue (JObj [((s_ "map_of_class_refs"), (JObj [((s_ "some-key"), (JStr (s_ "some-empty")))]));
  ((s_ "empties"), (JObj [((s_ "some-empty"), (JObj []))]))]));
((Tables [] [] []),
  schema_general_map_of_date, value_general_map_of_date_example_fail_invalid_format,
  ExpErrors [(s_ "#/map_of_dates/'some_key': Expected to strptime %Y-%m-%d, but got: 2016/07/03")]);
((Tables [] [TimeRow (s_ "%Y-%m-%d") (s_ "2016-07-03") (Dt (2016)%Z (7)%Z (3)%Z (0)%Z (0)%Z (0)%Z (0)%Z None) (s_ "2016-07-03")] []),
  schema_general_map_of_date, value_general_map_of_date_example_ok,
  ExpValue (JObj [((s_ "map_of_dates"), (JObj [((s_ "some_key"), (JStr (s_ "2016-07-03")))]))]));
((Tables [] [] []),
  schema_general_map_of_datetime, value_general_map_of_datetime_example_fail_invalid_format,
  ExpErrors [(s_ "#/map_of_datetimes/'some_key': Expected to strptime %Y-%m-%dT%H:%M:%SZ, but got: 2016/07/03 21-22-23")]);
((Tables [] [TimeRow (s_ "%Y-%m-%dT%H:%M:%SZ") (s_ "2016-07-03T21:22:23Z") (Dt (2016)%Z (7)%Z (3)%Z (21)%Z (22)%Z (23)%Z (0)%Z None) (s_ "2016-07-03T21:22:23Z")] []),
  schema_general_map_of_datetime, value_general_map_of_datetime_example_ok,
  ExpValue (JObj [((s_ "map_of_datetimes"), (JObj [((s_ "some_key"), (JStr (s_ "2016-07-03T21:22:23Z")))]))]));
((Tables [] [] []),
  schema_general_map_of_duration, value_general_map_of_duration_example_ok,
  ExpValue (JObj [((s_ "map_of_durations"), (JObj [((s_ "some-key"), (JStr (s_ "P1D")))]))]));
((Tables [] [] []),
  schema_general_map_of_embed, value_general_map_of_embed_example_invalid_property_in_embed,
  ExpErrors [(s_ "#/map_of_embeds/'some-key'/some_property: Expected a bool, but got: <class 'int'>")]);
((Tables [] [] []),
  schema_general_map_of_embed, value_general_map_of_embed_example_invalid_type,
  ExpErrors [(s_ "#/map_of_embeds/'some-key': Expected a dictionary, but got: <class 'int'>")]);
((Tables [] [] []),
  schema_general_map_of_embed, value_general_map_of_embed_example_ok,
  ExpValue (JObj [((s_ "map_of_embeds"), (JObj [((s_ "some-key"), (JObj [((s_ "some_property"), (JBool true))]))]))]));
((Tables [] [] []),
  schema_general_map_of_float, value_general_map_of_float_example_ok,
  ExpValue (JObj [((s_ "map_of_floats"), (JObj [((s_ "some-key"), (JFloat (S754_finite false 4953959590107546 (-52)%Z)))]))]));
((Tables [] [] []),
  schema_general_map_of_integer, value_general_map_of_integer_example_ok,
  ExpValue (JObj [((s_ "map_of_integers"), (JObj [((s_ "some-key"), (JInt (1984)%Z))]))]));
((Tables [] [] []),
  schema_general_map_of_map, value_general_map_of_map_example_invalid_nested_type,
  ExpErrors [(s_ "#/map_of_maps/'some_key'/'another_key': Expected a bool, but got: <class 'int'>")]);
((Tables [] [] []),
  schema_general_map_of_map, value_general_map_of_map_example_invalid_type,
  ExpErrors [(s_ "#/map_of_maps/'some_key': Expected a dict, but got: <class 'int'>")]);
((Tables [] [] []),
  schema_general_map_of_map, value_general_map_of_map_example_ok,
  ExpValue (JObj [((s_ "map_of_maps"), (JObj [((s_ "some_key"), (JObj [((s_ "another_key"), (JBool true))]))]))]));
((Tables [] [] []),
  schema_general_map_of_path, value_general_map_of_path_example_ok,
  ExpValue (JObj [((s_ "map_of_paths"), (JObj [((s_ "some-key"), (JStr (s_ "/some/path")))]))]));
((Tables [] [] []),
  schema_general_map_of_string, value_general_map_of_string_example_fail_invalid_pattern,
  ExpErrors [(s_ "#/map_of_strings/'some_key': Expected to match ^hello.*$, but got: goodbye")]);
((Tables [((s_ "^hello.*$"), (s_ "hello"))] [] []),
  schema_general_map_of_string, value_general_map_of_string_example_ok,
  ExpValue (JObj [((s_ "map_of_strings"), (JObj [((s_ "some_key"), (JStr (s_ "hello")))]))]));
((Tables [] [] []),
  schema_general_map_of_time_zone, value_general_map_of_time_zone_example_ok,
  ExpValue (JObj [((s_ "map_of_time_zones"), (JObj [((s_ "some-key"), (JStr (s_ "Europe/Zurich")))]))]));
((Tables [] [] []),
  schema_general_optional_in_class, value_general_optional_in_class_example_fail_invalid_type,
  ExpErrors [(s_ "#/with_optionals/'some-instance'/some_text: Expected a string, but got: <class 'int'>")]);
((Tables [] [] []),
  schema_general_optional_in_class, value_general_optional_in_class_example_ok,
  ExpValue (JObj [((s_ "with_optionals"), (JObj [((s_ "some-instance"), (JObj [((s_ "some_text"), (JStr (s_ "lorem ipsum")))]))]))]));
((Tables [] [] []),
  schema_general_optional_in_class, value_general_optional_in_class_example_ok_unspecified,
  ExpValue (JObj [((s_ "with_optionals"), (JObj [((s_ "some-instance"), (JObj []))]))]));
((Tables [] [] []),
  schema_general_optional_in_embed, value_general_optional_in_embed_example_fail_invalid_type,
  ExpErrors [(s_ "#/some_property/some_text: Expected a string, but got: <class 'int'>")]);
((Tables [] [] []),
  schema_general_optional_in_embed, value_general_optional_in_embed_example_ok,
  ExpValue (JObj [((s_ "some_property"), (JObj [((s_ "some_text"), (JStr (s_ "lorem ipsum")))]))]));
((Tables [] [] []),
  schema_general_optional_in_embed, value_general_optional_in_embed_example_ok_unspecified,
  ExpValue (JObj [((s_ "some_property"), (JObj []))]));
((Tables [] [] []),
  schema_general_optional_in_graph, value_general_optional_in_graph_example_fail_invalid_type,
  ExpErrors [(s_ "#/optional_path: Expected a string, but got: <class 'int'>")]);
((Tables [] [TimeRow (s_ "%H:%M:%S") (s_ "21:22:23") (Dt (1900)%Z (1)%Z (1)%Z (21)%Z (22)%Z (23)%Z (0)%Z None) (s_ "21:22:23");
  TimeRow (s_ "%Y-%m-%d") (s_ "2016-07-03") (Dt (2016)%Z (7)%Z (3)%Z (0)%Z (0)%Z (0)%Z (0)%Z None) (s_ "2016-07-03");
  TimeRow (s_ "%Y-%m-%dT%H:%M:%SZ") (s_ "2016-07-03T21:22:23Z") (Dt (2016)%Z (7)%Z (3)%Z (21)%Z (22)%Z (23)%Z (0)%Z None) (s_ "2016-07-03T21:22:23Z")] []),
  schema_general_optional_in_graph, value_general_optional_in_graph_example_ok,
  ExpValue (JObj [((s_ "optional_array"), (JArr [(JInt (3)%Z)]));
  ((s_ "optional_boolean"), (JBool true));
  ((s_ "optional_date"), (JStr (s_ "2016-07-03")));
  ((s_ "optional_datetime"), (JStr (s_ "2016-07-03T21:22:23Z")));
  ((s_ "optional_duration"), (JStr (s_ "P1D")));
  ((s_ "optional_float"), (JFloat (S754_finite false 6980579422424269 (-45)%Z)));
  ((s_ "optional_integer"), (JInt (1984)%Z));
  ((s_ "optional_map"), (JObj [((s_ "some-key"), (JInt (3)%Z))]));
  ((s_ "optional_path"), (JStr (s_ "/some/file")));
  ((s_ "optional_string"), (JStr (s_ "some string")));
  ((s_ "optional_time"), (JStr (s_ "21:22:23")));
  ((s_ "optional_time_zone"), (JStr (s_ "Europe/Zurich")));
  ((s_ "optional_reference"), (JStr (s_ "an_instance_of_empty")));
  ((s_ "optional_embed"), (JObj []));
  ((s_ "empties"), (JObj [((s_ "an_instance_of_empty"), (JObj []))]))]));
((Tables [] [] []),
  schema_general_optional_in_graph, value_general_optional_in_graph_example_ok_unspecified,
  ExpValue (JObj [((s_ "empties"), (JObj [((s_ "an-instace-of-empty"), (JObj []))]))]));
((Tables [] [] []),
  schema_general_primitive_type_boolean, value_general_primitive_type_boolean_example_fail_invalid_type,
  ExpErrors [(s_ "#/some_bool: Expected a bool, but got: <class 'str'>")]);
((Tables [] [] []),
  schema_general_primitive_type_boolean, value_general_primitive_type_boolean_example_ok,
  ExpValue (JObj [((s_ "some_bool"), (JBool true))]));
((Tables [] [] []),
  schema_general_primitive_type_date, value_general_primitive_type_date_example_fail_invalid_format,
  ExpErrors [(s_ "#/some_date: Expected to strptime %Y/%m/%d, but got: 2016!07!03"); (s_ "#/formatless_date: Expected to strptime %Y-%m-%d, but got: 2016!07!03")]);
((Tables [] [TimeRow (s_ "%Y-%m-%d") (s_ "2016-07-03") (Dt (2016)%Z (7)%Z (3)%Z (0)%Z (0)%Z (0)%Z (0)%Z None) (s_ "2016-07-03")] []),
  schema_general_primitive_type_date, value_general_primitive_type_date_example_fail_invalid_type,
  ExpErrors [(s_ "#/some_date: Expected a string, but got: <class 'int'>")]);
((Tables [] [TimeRow (s_ "%Y-%m-%d") (s_ "2016-07-03") (Dt (2016)%Z (7)%Z (3)%Z (0)%Z (0)%Z (0)%Z (0)%Z None) (s_ "2016-07-03");
  TimeRow (s_ "%Y/%m/%d") (s_ "2016/07/03") (Dt (2016)%Z (7)%Z (3)%Z (0)%Z (0)%Z (0)%Z (0)%Z None) (s_ "2016/07/03")] []),
  schema_general_primitive_type_date, value_general_primitive_type_date_example_ok,
  ExpValue (JObj [((s_ "some_date"), (JStr (s_ "2016/07/03")));
  ((s_ "formatless_date"), (JStr (s_ "2016-07-03")))]));
((Tables [] [TimeRow (s_ "%Y/%m/%d %H-%M-%SZ") (s_ "2016/07/03 21-22-23Z") (Dt (2016)%Z (7)%Z (3)%Z (21)%Z (22)%Z (23)%Z (0)%Z None) (s_ "2016/07/03 21-22-23Z")] []),
  schema_general_primitive_type_datetime, value_general_primitive_type_datetime_example_fail_invalid_format,
  ExpErrors [(s_ "#/formatless_datetime: Expected to strptime %Y-%m-%dT%H:%M:%SZ, but got: 2016.07.03 21.22.23")]);
((Tables [] [TimeRow (s_ "%Y-%m-%dT%H:%M:%SZ") (s_ "2016-07-03T21:22:23Z") (Dt (2016)%Z (7)%Z (3)%Z (21)%Z (22)%Z (23)%Z (0)%Z None) (s_ "2016-07-03T21:22:23Z")] []),
  schema_general_primitive_type_datetime, value_general_primitive_type_datetime_example_fail_invalid_type,
  ExpErrors [(s_ "#/some_datetime: Expected a string, but got: <class 'int'>")]);
((Tables [] [TimeRow (s_ "%Y-%m-%dT%H:%M:%SZ") (s_ "2016-07-03T21:22:23Z") (Dt (2016)%Z (7)%Z (3)%Z (21)%Z (22)%Z (23)%Z (0)%Z None) (s_ "2016-07-03T21:22:23Z");
  TimeRow (s_ "%Y/%m/%d %H-%M-%SZ") (s_ "2016/07/03 21-22-23Z") (Dt (2016)%Z (7)%Z (3)%Z (21)%Z (22)%Z (23)%Z (0)%Z None) (s_ "2016/07/03 21-22-23Z")] []),
  schema_general_primitive_type_datetime, value_general_primitive_type_datetime_example_ok,
  ExpValue (JObj [((s_ "some_datetime"), (JStr (s_ "2016/07/03 21-22-23Z")));
  ((s_ "formatless_datetime"), (JStr (s_ "2016-07-03T21:22:23Z")))]));
((Tables [] [] []),
  schema_general_primitive_type_duration, value_general_primitive_type_duration_example_fail_invalid_format,
  ExpErrors [(s_ "#/some_duration: Failed to match the duration: 'Period1D'")]);
((Tables [] [] []),
  schema_general_primitive_type_duration, value_general_primitive_type_duration_example_fail_invalid_type,
  ExpErrors [(s_ "#/some_duration: Expected a string, but got: <class 'int'>")]);
((Tables [] [] []),
  schema_general_primitive_type_duration, value_general_primitive_type_duration_example_ok,
  ExpValue (JObj [((s_ "some_duration"), (JStr (s_ "P1DT1H1M1S")))]));
((Tables [] [] []),
  schema_general_primitive_type_duration, value_general_primitive_type_duration_example_ok_all_ones,
  ExpValue (JObj [((s_ "some_duration"), (JStr (s_ "P403DT17H19M19S")))]));
((Tables [] [] []),
  schema_general_primitive_type_duration, value_general_primitive_type_duration_example_ok_fractions,
  ExpValue (JObj [((s_ "some_duration"), (JStr (s_ "P444DT2H15M14.9S")))]));
((Tables [] [] []),
  schema_general_primitive_type_duration, value_general_primitive_type_duration_example_ok_many_years,
  ExpValue (JObj [((s_ "some_duration"), (JStr (s_ "P10957DT6H36M")))]));
((Tables [] [] []),
  schema_general_primitive_type_duration, value_general_primitive_type_duration_example_ok_negative_duration,
  ExpValue (JObj [((s_ "some_duration"), (JStr (s_ "-P1DT1H1M1S")))]));
((Tables [] [] []),
  schema_general_primitive_type_duration, value_general_primitive_type_duration_example_ok_zeros_after_comma,
  ExpValue (JObj [((s_ "some_duration"), (JStr (s_ "PT1S")))]));
((Tables [] [] []),
  schema_general_primitive_type_float, value_general_primitive_type_float_example_fail_invalid_type,
  ExpErrors [(s_ "#/some_float_gt_0_lt_100: Expected a number, but got: <class 'str'>")]);
((Tables [] [] []),
  schema_general_primitive_type_float, value_general_primitive_type_float_example_fail_out_of_ge_range,
  ExpErrors [(s_ "#/some_float_ge_0_le_100: Expected >= 0, but got: -0.1")]);
((Tables [] [] []),
  schema_general_primitive_type_float, value_general_primitive_type_float_example_fail_out_of_gt_range,
  ExpErrors [(s_ "#/some_float_gt_0_lt_100: Expected > 0, but got: -0.0")]);
((Tables [] [] []),
  schema_general_primitive_type_float, value_general_primitive_type_float_example_fail_out_of_le_range,
  ExpErrors [(s_ "#/some_float_ge_0_le_100: Expected <= 100, but got: 100.1")]);
((Tables [] [] []),
  schema_general_primitive_type_float, value_general_primitive_type_float_example_fail_out_of_lt_range,
  ExpErrors [(s_ "#/some_float_gt_0_lt_100: Expected < 100, but got: 100.0")]);
((Tables [] [] []),
  schema_general_primitive_type_float, value_general_primitive_type_float_example_ok,
  ExpValue (JObj [((s_ "some_float_gt_0_lt_100"), (JFloat (S754_finite false 5953195757430374 (-47)%Z)));
  ((s_ "some_float_ge_0_le_100"), (JFloat (S754_finite false 7036874417766400 (-46)%Z)));
  ((s_ "unconstrained_float"), (JFloat (S754_finite true 8727483496634778 (-42)%Z)))]));
((Tables [] [] []),
  schema_general_primitive_type_integer, value_general_primitive_type_integer_example_fail_invalid_type,
  ExpErrors [(s_ "#/some_int_gt_0_lt_100: Expected an integer, but got: <class 'str'>")]);
((Tables [] [] []),
  schema_general_primitive_type_integer, value_general_primitive_type_integer_example_fail_out_of_ge_range,
  ExpErrors [(s_ "#/some_int_ge_0_le_100: Expected >= 0, but got: -1")]);
((Tables [] [] []),
  schema_general_primitive_type_integer, value_general_primitive_type_integer_example_fail_out_of_gt_range,
  ExpErrors [(s_ "#/some_int_gt_0_lt_100: Expected > 0, but got: 0")]);
((Tables [] [] []),
  schema_general_primitive_type_integer, value_general_primitive_type_integer_example_fail_out_of_le_range,
  ExpErrors [(s_ "#/some_int_ge_0_le_100: Expected <= 100, but got: 101")]);
((Tables [] [] []),
  schema_general_primitive_type_integer, value_general_primitive_type_integer_example_fail_out_of_lt_range,
  ExpErrors [(s_ "#/some_int_gt_0_lt_100: Expected < 100, but got: 100")]);
((Tables [] [] []),
  schema_general_primitive_type_integer, value_general_primitive_type_integer_example_ok,
  ExpValue (JObj [((s_ "some_int_gt_0_lt_100"), (JInt (42)%Z));
  ((s_ "some_int_ge_0_le_100"), (JInt (100)%Z));
  ((s_ "unconstrained_int"), (JInt (-1984)%Z))]));
((Tables [] [] []),
  schema_general_primitive_type_path, value_general_primitive_type_path_example_fail_invalid_pattern,
  ExpErrors [(s_ "#/some_path: Expected to match ^/[a-zA-Z]+-[0-9]+$, but got: /!@# somefolder-123")]);
((Tables [] [] []),
  schema_general_primitive_type_path, value_general_primitive_type_path_example_fail_invalid_type,
  ExpErrors [(s_ "#/some_path: Expected a string, but got: <class 'int'>"); (s_ "#/unconstrained_path: Expected a string, but got: <class 'int'>")]);
((Tables [((s_ "^/[a-zA-Z]+-[0-9]+$"), (s_ "/somefolder-123"))] [] []),
  schema_general_primitive_type_path, value_general_primitive_type_path_example_ok,
  ExpValue (JObj [((s_ "some_path"), (JStr (s_ "/somefolder-123")));
  ((s_ "unconstrained_path"), (JStr [47; 33; 64; 35; 32; 115; 246; 109; 232; 32; 112; 228; 116; 104]%N))]));
((Tables [] [] []),
  schema_general_primitive_type_string, value_general_primitive_type_string_example_fail_invalid_pattern,
  ExpErrors [(s_ "#/some_str: Expected to match ^[a-zA-Z]*$, but got: some !@#$ string")]);
((Tables [] [] []),
  schema_general_primitive_type_string, value_general_primitive_type_string_example_fail_invalid_type,
  ExpErrors [(s_ "#/some_str: Expected a string, but got: <class 'int'>"); (s_ "#/unconstrained_str: Expected a string, but got: <class 'int'>")]);
((Tables [((s_ "^[a-zA-Z]*$"), (s_ "somestring"))] [] []),
  schema_general_primitive_type_string, value_general_primitive_type_string_example_ok,
  ExpValue (JObj [((s_ "some_str"), (JStr (s_ "somestring")));
  ((s_ "unconstrained_str"), (JStr [33; 64; 35; 36; 32; 115; 111; 109; 101; 32; 252; 110; 99; 246; 110; 115; 116; 114; 228; 105; 110; 233; 100; 32; 115; 116; 114; 110; 103]%N))]));
((Tables [] [] []),
  schema_general_primitive_type_time, value_general_primitive_type_time_example_fail_invalid_format,
  ExpErrors [(s_ "#/some_time: Expected to strptime %H-%M-%S, but got: 21/22/23"); (s_ "#/formatless_time: Expected to strptime %H:%M:%S, but got: 21/22/23")]);
((Tables [] [TimeRow (s_ "%H:%M:%S") (s_ "21:22:23") (Dt (1900)%Z (1)%Z (1)%Z (21)%Z (22)%Z (23)%Z (0)%Z None) (s_ "21:22:23")] []),
  schema_general_primitive_type_time, value_general_primitive_type_time_example_invalid_type,
  ExpErrors [(s_ "#/some_time: Expected a string, but got: <class 'int'>")]);
((Tables [] [TimeRow (s_ "%H-%M-%S") (s_ "21-22-23") (Dt (1900)%Z (1)%Z (1)%Z (21)%Z (22)%Z (23)%Z (0)%Z None) (s_ "21-22-23");
  TimeRow (s_ "%H:%M:%S") (s_ "21:22:23") (Dt (1900)%Z (1)%Z (1)%Z (21)%Z (22)%Z (23)%Z (0)%Z None) (s_ "21:22:23")] []),
  schema_general_primitive_type_time, value_general_primitive_type_time_example_ok,
  ExpValue (JObj [((s_ "some_time"), (JStr (s_ "21-22-23")));
  ((s_ "formatless_time"), (JStr (s_ "21:22:23")))]));
((Tables [] [] []),
  schema_general_primitive_type_time_zone, value_general_primitive_type_time_zone_example_ok,
  ExpValue (JObj [((s_ "some_time_zone"), (JStr (s_ "Europe/Zurich")))]));
((Tables [] [] []),
  schema_py_primitive_types_duration, value_py_primitive_types_duration_example_fail_too_many_years,
  ExpErrors [(s_ "#/some_duration: Creating a timedelta overflowed from: 'P3000000000Y'")]);
((Tables [] [] []),
  schema_py_primitive_types_float, value_py_primitive_types_float_example_ok_big_float,
  ExpValue (JObj [((s_ "some_float"), (JFloat (S754_infinity false)))]));
((Tables [] [] []),
  schema_py_primitive_types_float, value_py_primitive_types_float_example_ok_lowest,
  ExpValue (JObj [((s_ "some_float"), (JFloat (S754_finite true 9007199254740991 (971)%Z)))]));
((Tables [] [] []),
  schema_py_primitive_types_float, value_py_primitive_types_float_example_ok_max,
  ExpValue (JObj [((s_ "some_float"), (JFloat (S754_finite false 9007199254740991 (971)%Z)))]));
((Tables [] [] []),
  schema_py_primitive_types_float, value_py_primitive_types_float_example_ok_min,
  ExpValue (JObj [((s_ "some_float"), (JFloat (S754_finite false 4503599627370496 (-1074)%Z)))]));
((Tables [] [] []),
  schema_py_primitive_types_integer, value_py_primitive_types_integer_example_fail_fraction,
  ExpErrors [(s_ "#/some_int: Expected an integer, but got: <class 'float'>")]);
((Tables [] [] []),
  schema_py_primitive_types_integer, value_py_primitive_types_integer_example_ok_big_int,
  ExpValue (JObj [((s_ "some_int"), (JInt (9223372036854775808)%Z))]));
((Tables [] [] [(s_ "Singidunum/Taurunum")]),
  schema_py_timezone_as_pytz_timezone, value_py_timezone_as_pytz_timezone_example_fail_invalid_timezone,
  ExpErrors [(s_ "#/some_time_zone: Expected a valid IANA time zone, but got: Singidunum/Taurunum")]);
((Tables [] [] []),
  schema_py_timezone_as_pytz_timezone, value_py_timezone_as_pytz_timezone_example_ok,
  ExpValue (JObj [((s_ "some_time_zone"), (JStr (s_ "Europe/Zurich")))]))].

Definition go_cases : list (tables * jval * jval * expected) := [
((Tables [] [TimeRow (s_ "%Y-%m-%d") (s_ "1983-10-24") (Dt (1983)%Z (10)%Z (24)%Z (0)%Z (0)%Z (0)%Z (0)%Z None) (s_ "1983-10-24");
  TimeRow (s_ "%Y-%m-%d") (s_ "2016-07-03") (Dt (2016)%Z (7)%Z (3)%Z (0)%Z (0)%Z (0)%Z (0)%Z None) (s_ "2016-07-03")] []),
  schema_docs_schema_introductory_example, value_docs_schema_introductory_example_example_ok,
  ExpValue (JObj [((s_ "maintainer"), (JStr (s_ "alice")));
  ((s_ "persons"), (JObj [((s_ "alice"), (JObj [((s_ "address"), (JObj [((s_ "text"), (JStr (s_ "Some street 12, Some City, Some Country")))]));
  ((s_ "birthday"), (JStr (s_ "1983-10-24")));
  ((s_ "full_name"), (JStr (s_ "Alice Doe")))]));
  ((s_ "bob"), (JObj [((s_ "address"), (JObj [((s_ "text"), (JStr (s_ "Another street 36, Another City, Another Country")))]));
  ((s_ "birthday"), (JStr (s_ "2016-07-03")));
  ((s_ "full_name"), (JStr (s_ "Bob Johnson")))]))]))]));
((Tables [] [] []),
  schema_general_array_fails_invalid_types, value_general_array_fails_invalid_types_example_fail_invalid_type,
  ExpErrors [(s_ "#/array_of_booleans: expected a []interface{}, but got: bool")]);
((Tables [] [] []),
  schema_general_array_fails_invalid_types, value_general_array_fails_invalid_types_example_fail_nested_invalid_type,
  ExpErrors [(s_ "#/array_of_booleans/0: expected a bool, but got: float64")]);
((Tables [] [] []),
  schema_general_array_maximum_size, value_general_array_maximum_size_example_fail_invalid_size,
  ExpErrors [(s_ "#/array_of_booleans: expected an array of maximum size 1, but got: 2")]);
((Tables [] [] []),
  schema_general_array_maximum_size, value_general_array_maximum_size_example_ok,
  ExpValue (JObj [((s_ "array_of_booleans"), (JArr [(JBool true)]))]));
((Tables [] [] []),
  schema_general_array_minimum_size, value_general_array_minimum_size_example_fail_invalid_size,
  ExpErrors [(s_ "#/array_of_booleans: expected an array of minimum size 1, but got: 0")]);
((Tables [] [] []),
  schema_general_array_minimum_size, value_general_array_minimum_size_example_ok,
  ExpValue (JObj [((s_ "array_of_booleans"), (JArr [(JBool true)]))]));
((Tables [] [] []),
  schema_general_array_of_array, value_general_array_of_array_example_fail_invalid_type,
  ExpErrors [(s_ "#/array_of_arrays: expected a []interface{}, but got: bool")]);
((Tables [] [] []),
  schema_general_array_of_array, value_general_array_of_array_example_fail_nested_error,
  ExpErrors [(s_ "#/array_of_arrays/0/0: expected a bool, but got: float64")]);
((Tables [] [] []),
  schema_general_array_of_array, value_general_array_of_array_example_ok,
  ExpValue (JObj [((s_ "array_of_arrays"), (JArr [(JArr [(JBool true)])]))]));
((Tables [] [] []),
  schema_general_array_of_boolean, value_general_array_of_boolean_example_ok,
  ExpValue (JObj [((s_ "array_of_booleans"), (JArr [(JBool true)]))]));
((Tables [] [] []),
  schema_general_array_of_class_ref, value_general_array_of_class_ref_example_ok,
  ExpValue (JObj [((s_ "array_of_class_refs"), (JArr [(JStr (s_ "some-empty"))]));
  ((s_ "empties"), (JObj [((s_ "some-empty"), (JObj []))]))]));
((Tables [] [TimeRow (s_ "%Y-%m-%d") (s_ "2016-07-03") (Dt (2016)%Z (7)%Z (3)%Z (0)%Z (0)%Z (0)%Z (0)%Z None) (s_ "2016-07-03")] []),
  schema_general_array_of_date, value_general_array_of_date_example_ok,
  ExpValue (JObj [((s_ "array_of_dates"), (JArr [(JStr (s_ "2016-07-03"))]))]));
((Tables [] [TimeRow (s_ "%Y-%m-%dT%H:%M:%SZ") (s_ "2016-07-03T21:22:23Z") (Dt (2016)%Z (7)%Z (3)%Z (21)%Z (22)%Z (23)%Z (0)%Z None) (s_ "2016-07-03T21:22:23Z")] []),
  schema_general_array_of_datetime, value_general_array_of_datetime_example_ok,
  ExpValue (JObj [((s_ "array_of_datetimes"), (JArr [(JStr (s_ "2016-07-03T21:22:23Z"))]))]));
((Tables [] [] []),
  schema_general_array_of_duration, value_general_array_of_duration_example_ok,
  ExpValue (JObj [((s_ "array_of_durations"), (JArr [(JStr (s_ "P1D"))]))]));
((Tables [] [] []),
  schema_general_array_of_embed, value_general_array_of_embed_example_ok,
  ExpValue (JObj [((s_ "array_of_embeds"), (JArr [(JObj [])]))]));
((Tables [] [] []),
  schema_general_array_of_float, value_general_array_of_float_example_ok,
  ExpValue (JObj [((s_ "array_of_floats"), (JArr [(JFloat (S754_finite false 4953959590107546 (-52)%Z))]))]));
((Tables [] [] []),
  schema_general_array_of_integer, value_general_array_of_integer_example_ok,
  ExpValue (JObj [((s_ "array_of_integers"), (JArr [(JInt (1984)%Z)]))]));
((Tables [] [] []),
  schema_general_array_of_map, value_general_array_of_map_example_ok,
  ExpValue (JObj [((s_ "array_of_maps"), (JArr [(JObj [((s_ "some-key"), (JBool true))])]))]));
((Tables [] [] []),
  schema_general_array_of_path, value_general_array_of_path_example_ok,
  ExpValue (JObj [((s_ "array_of_paths"), (JArr [(JStr (s_ "/some/path"))]))]));
((Tables [] [] []),
  schema_general_array_of_string, value_general_array_of_string_example_ok,
  ExpValue (JObj [((s_ "array_of_strings"), (JArr [(JStr (s_ "some string"))]))]));
((Tables [] [TimeRow (s_ "%H:%M:%S") (s_ "21:22:23") (Dt (1900)%Z (1)%Z (1)%Z (21)%Z (22)%Z (23)%Z (0)%Z None) (s_ "21:22:23")] []),
  schema_general_array_of_time, value_general_array_of_time_example_ok,
  ExpValue (JObj [((s_ "array_of_times"), (JArr [(JStr (s_ "21:22:23"))]))]));
((Tables [] [] []),
  schema_general_array_of_time_zone, value_general_array_of_time_zone_example_ok,
  ExpValue (JObj [((s_ "array_of_time_zones"), (JArr [(JStr (s_ "Europe/Zurich"))]))]));
((Tables [((s_ "^[a-zA-Z_\-][a-zA-Z_0-9\-]*$"), (s_ "a-non-existing-instance-of-empty")); ((s_ "^[a-zA-Z_\-][a-zA-Z_0-9\-]*$"), (s_ "an-instance-of-empty")); ((s_ "^[a-zA-Z_\-][a-zA-Z_0-9\-]*$"), (s_ "an-instance-of-with-reference")); ((s_ "^[a-zA-Z_\-][a-zA-Z_0-9\-]*$"), (s_ "array_of_empties")); ((s_ "^[a-zA-Z_\-][a-zA-Z_0-9\-]*$"), (s_ "empties")); ((s_ "^[a-zA-Z_\-][a-zA-Z_0-9\-]*$"), (s_ "global_reference_to_an_empty")); ((s_ "^[a-zA-Z_\-][a-zA-Z_0-9\-]*$"), (s_ "map_of_empties")); ((s_ "^[a-zA-Z_\-][a-zA-Z_0-9\-]*$"), (s_ "reference_to_an_empty")); ((s_ "^[a-zA-Z_\-][a-zA-Z_0-9\-]*$"), (s_ "some-key")); ((s_ "^[a-zA-Z_\-][a-zA-Z_0-9\-]*$"), (s_ "with_references"))] [] []),
  schema_general_class, value_general_class_example_fail_dangling_reference,
  ExpErrors [(s_ "#/global_reference_to_an_empty: reference to an instance of class Empty not found: a-non-existing-instance-of-empty")]);
((Tables [((s_ "^[a-zA-Z_\-][a-zA-Z_0-9\-]*$"), (s_ "an-instance-of-empty")); ((s_ "^[a-zA-Z_\-][a-zA-Z_0-9\-]*$"), (s_ "an-instance-of-with-reference")); ((s_ "^[a-zA-Z_\-][a-zA-Z_0-9\-]*$"), (s_ "array_of_empties")); ((s_ "^[a-zA-Z_\-][a-zA-Z_0-9\-]*$"), (s_ "empties")); ((s_ "^[a-zA-Z_\-][a-zA-Z_0-9\-]*$"), (s_ "global_reference_to_an_empty")); ((s_ "^[a-zA-Z_\-][a-zA-Z_0-9\-]*$"), (s_ "map_of_empties")); ((s_ "^[a-zA-Z_\-][a-zA-Z_0-9\-]*$"), (s_ "reference_to_an_empty")); ((s_ "^[a-zA-Z_\-][a-zA-Z_0-9\-]*$"), (s_ "some-key")); ((s_ "^[a-zA-Z_\-][a-zA-Z_0-9\-]*$"), (s_ "with_references"))] [] []),
  schema_general_class, value_general_class_example_fail_error_in_instance,
  ExpErrors [(s_ "#/with_references/an-instance-of-with-reference/reference_to_an_empty: expected a string, but got: float64")]);
((Tables [((s_ "^[a-zA-Z_\-][a-zA-Z_0-9\-]*$"), (s_ "empties")); ((s_ "^[a-zA-Z_\-][a-zA-Z_0-9\-]*$"), (s_ "global_reference_to_an_empty"))] [] []),
  schema_general_class, value_general_class_example_fail_invalid_instance_id,
  ExpErrors [(s_ "#/empties: expected ID to match ^[a-zA-Z_\-][a-zA-Z_0-9\-]*$, but got: an/instance/of/empty")]);
((Tables [((s_ "^[a-zA-Z_\-][a-zA-Z_0-9\-]*$"), (s_ "an-instance-of-empty")); ((s_ "^[a-zA-Z_\-][a-zA-Z_0-9\-]*$"), (s_ "empties")); ((s_ "^[a-zA-Z_\-][a-zA-Z_0-9\-]*$"), (s_ "global_reference_to_an_empty")); ((s_ "^[a-zA-Z_\-][a-zA-Z_0-9\-]*$"), (s_ "with_references"))] [] []),
  schema_general_class, value_general_class_example_fail_invalid_type_of_class_registry,
  ExpErrors [(s_ "#/with_references: expected a map[string]interface{}, but got: []interface {}")]);
((Tables [((s_ "^[a-zA-Z_\-][a-zA-Z_0-9\-]*$"), (s_ "an-instance-of-empty")); ((s_ "^[a-zA-Z_\-][a-zA-Z_0-9\-]*$"), (s_ "empties")); ((s_ "^[a-zA-Z_\-][a-zA-Z_0-9\-]*$"), (s_ "global_reference_to_an_empty"))] [] []),
  schema_general_class, value_general_class_example_fail_invalid_type_of_instance,
  ExpErrors [(s_ "#/empties/an-instance-of-empty: expected a map[string]interface{}, but got: float64")]);
((Tables [((s_ "^[a-zA-Z_\-][a-zA-Z_0-9\-]*$"), (s_ "an-instance-of-empty")); ((s_ "^[a-zA-Z_\-][a-zA-Z_0-9\-]*$"), (s_ "empties")); ((s_ "^[a-zA-Z_\-][a-zA-Z_0-9\-]*$"), (s_ "global_reference_to_an_empty"))] [] []),
  schema_general_class, value_general_class_example_fail_invalid_type_of_reference,
  ExpErrors [(s_ "#/global_reference_to_an_empty: expected a string, but got: float64")]);
((Tables [((s_ "^[a-zA-Z_\-][a-zA-Z_0-9\-]*$"), (s_ "an-instance-of-empty")); ((s_ "^[a-zA-Z_\-][a-zA-Z_0-9\-]*$"), (s_ "an-instance-of-with-reference")); ((s_ "^[a-zA-Z_\-][a-zA-Z_0-9\-]*$"), (s_ "array_of_empties")); ((s_ "^[a-zA-Z_\-][a-zA-Z_0-9\-]*$"), (s_ "empties")); ((s_ "^[a-zA-Z_\-][a-zA-Z_0-9\-]*$"), (s_ "global_reference_to_an_empty")); ((s_ "^[a-zA-Z_\-][a-zA-Z_0-9\-]*$"), (s_ "map_of_empties")); ((s_ "^[a-zA-Z_\-][a-zA-Z_0-9\-]*$"), (s_ "reference_to_an_empty")); ((s_ "^[a-zA-Z_\-][a-zA-Z_0-9\-]*$"), (s_ "some-key")); ((s_ "^[a-zA-Z_\-][a-zA-Z_0-9\-]*$"), (s_ "with_references"))] [] []),
  schema_general_class, value_general_class_example_ok,
  ExpValue (JObj [((s_ "empties"), (JObj [((s_ "an-instance-of-empty"), (JObj []))]));
  ((s_ "global_reference_to_an_empty"), (JStr (s_ "an-instance-of-empty")));
  ((s_ "with_references"), (JObj [((s_ "an-instance-of-with-reference"), (JObj [((s_ "array_of_empties"), (JArr [(JStr (s_ "an-instance-of-empty"))]));
  ((s_ "map_of_empties"), (JObj [((s_ "some-key"), (JStr (s_ "an-instance-of-empty")))]));
  ((s_ "reference_to_an_empty"), (JStr (s_ "an-instance-of-empty")))]))]))]));
((Tables [((s_ "^[a-zA-Z_\-][a-zA-Z_0-9\-]*$"), (s_ "an-instance-of-empty")); ((s_ "^[a-zA-Z_\-][a-zA-Z_0-9\-]*$"), (s_ "empties")); ((s_ "^[a-zA-Z_\-][a-zA-Z_0-9\-]*$"), (s_ "global_reference_to_an_empty"))] [] []),
  schema_general_class, value_general_class_example_ok_missing_registry,
  ExpValue (JObj [((s_ "empties"), (JObj [((s_ "an-instance-of-empty"), (JObj []))]));
  ((s_ "global_reference_to_an_empty"), (JStr (s_ "an-instance-of-empty")))]));
((Tables [] [] []),
  schema_general_class_ref_in_embed, value_general_class_ref_in_embed_example_ok,
  ExpValue (JObj [((s_ "empties"), (JObj [((s_ "an-instance-of-empty"), (JObj []))]));
  ((s_ "some_embed"), (JObj [((s_ "reference_to_empty"), (JStr (s_ "an-instance-of-empty")))]))]));
((Tables [] [] []),
  schema_general_embed, value_general_embed_example_fail_invalid_property,
  ExpErrors [(s_ "#/some_embed/empty: expected a map[string]interface{}, but got: float64")]);
((Tables [] [] []),
  schema_general_embed, value_general_embed_example_fail_invalid_type,
  ExpErrors [(s_ "#/some_embed: expected a map[string]interface{}, but got: float64")]);
((Tables [] [] []),
  schema_general_embed, value_general_embed_example_ok,
  ExpValue (JObj [((s_ "some_embed"), (JObj [((s_ "empty"), (JObj []))]))]));
((Tables [] [] []),
  schema_general_json_property, value_general_json_property_example_fail_missing_property,
  ExpErrors [(s_ "#: property is missing: SOME-BOOL")]);
((Tables [] [] []),
  schema_general_json_property, value_general_json_property_example_ok,
  ExpValue (JObj [((s_ "SOME-BOOL"), (JBool true))]));
((Tables [] [] []),
  schema_general_map_invalid_type, value_general_map_invalid_type_example_invalid_type,
  ExpErrors [(s_ "#/map_of_booleans: expected a map[string]interface{}, but got: float64")]);
((Tables [] [] []),
  schema_general_map_of_array, value_general_map_of_array_example_invalid_nested_type,
  ExpErrors [(s_ "#/map_of_arrays/some_key/0: expected a bool, but got: float64")]);
((Tables [] [] []),
  schema_general_map_of_array, value_general_map_of_array_example_invalid_type,
  ExpErrors [(s_ "#/map_of_arrays/some_key: expected a []interface{}, but got: float64")]);
((Tables [] [] []),
  schema_general_map_of_array, value_general_map_of_array_example_ok,
  ExpValue (JObj [((s_ "map_of_arrays"), (JObj [((s_ "some_key"), (JArr [(JBool true)]))]))]));
((Tables [] [] []),
  schema_general_map_of_boolean, value_general_map_of_boolean_example_invalid_value_type,
  ExpErrors [(s_ "#/map_of_booleans/some_key: expected a bool, but got: float64")]);
((Tables [] [] []),
  schema_general_map_of_boolean, value_general_map_of_boolean_example_ok,
  ExpValue (JObj [((s_ "map_of_booleans"), (JObj [((s_ "some_key"), (JBool true))]))]));
((Tables [] [] []),
  schema_general_map_of_class_ref, value_general_map_of_class_ref_example_invalid_reference,
  ExpErrors [(s_ "#/map_of_class_refs/some-key: reference to an instance of class Empty not found: some-non-existing-empty")]);
((Tables [] [] []),
  schema_general_map_of_class_ref, value_general_map_of_class_ref_example_invalid_type,
  ExpErrors [(s_ "#/map_of_class_refs/some-key: expected a string, but got: float64")]);
((Tables [] [] []),
  schema_general_map_of_class_ref, value_general_map_of_class_ref_example_ok,
  ExpValue (JObj [((s_ "empties"), (JObj [((s_ "some-empty"), (JObj []))]));
  ((s_ "map_of_class_refs"), (JObj [((s_ "some-key"), (JStr (s_ "some-empty")))]))]));
((Tables [] [] []),
  schema_general_map_of_date, value_general_map_of_date_example_fail_invalid_format,
  ExpErrors [(s_ "#/map_of_dates/some_key: expected layout 2006-01-02, got: 2016/07/03")]);
((Tables [] [TimeRow (s_ "%Y-%m-%d") (s_ "2016-07-03") (Dt (2016)%Z (7)%Z (3)%Z (0)%Z (0)%Z (0)%Z (0)%Z None) (s_ "2016-07-03")] []),
  schema_general_map_of_date, value_general_map_of_date_example_ok,
  ExpValue (JObj [((s_ "map_of_dates"), (JObj [((s_ "some_key"), (JStr (s_ "2016-07-03")))]))]));
((Tables [] [] []),
  schema_general_map_of_datetime, value_general_map_of_datetime_example_fail_invalid_format,
  ExpErrors [(s_ "#/map_of_datetimes/some_key: expected layout 2006-01-02T15:04:05Z, got: 2016/07/03 21-22-23")]);
((Tables [] [TimeRow (s_ "%Y-%m-%dT%H:%M:%SZ") (s_ "2016-07-03T21:22:23Z") (Dt (2016)%Z (7)%Z (3)%Z (21)%Z (22)%Z (23)%Z (0)%Z None) (s_ "2016-07-03T21:22:23Z")] []),
  schema_general_map_of_datetime, value_general_map_of_datetime_example_ok,
  ExpValue (JObj [((s_ "map_of_datetimes"), (JObj [((s_ "some_key"), (JStr (s_ "2016-07-03T21:22:23Z")))]))]));
((Tables [] [] []),
  schema_general_map_of_duration, value_general_map_of_duration_example_ok,
  ExpValue (JObj [((s_ "map_of_durations"), (JObj [((s_ "some-key"), (JStr (s_ "P1D")))]))]));
((Tables [] [] []),
  schema_general_map_of_embed, value_general_map_of_embed_example_invalid_property_in_embed,
  ExpErrors [(s_ "#/map_of_embeds/some-key/some_property: expected a bool, but got: float64")]);
((Tables [] [] []),
  schema_general_map_of_embed, value_general_map_of_embed_example_invalid_type,
  ExpErrors [(s_ "#/map_of_embeds/some-key: expected a map[string]interface{}, but got: float64")]);
((Tables [] [] []),
  schema_general_map_of_embed, value_general_map_of_embed_example_ok,
  ExpValue (JObj [((s_ "map_of_embeds"), (JObj [((s_ "some-key"), (JObj [((s_ "some_property"), (JBool true))]))]))]));
((Tables [] [] []),
  schema_general_map_of_float, value_general_map_of_float_example_ok,
  ExpValue (JObj [((s_ "map_of_floats"), (JObj [((s_ "some-key"), (JFloat (S754_finite false 4953959590107546 (-52)%Z)))]))]));
((Tables [] [] []),
  schema_general_map_of_integer, value_general_map_of_integer_example_ok,
  ExpValue (JObj [((s_ "map_of_integers"), (JObj [((s_ "some-key"), (JInt (1984)%Z))]))]));
((Tables [] [] []),
  schema_general_map_of_map, value_general_map_of_map_example_invalid_nested_type,
  ExpErrors [(s_ "#/map_of_maps/some_key/another_key: expected a bool, but got: float64")]);
((Tables [] [] []),
  schema_general_map_of_map, value_general_map_of_map_example_invalid_type,
  ExpErrors [(s_ "#/map_of_maps/some_key: expected a map[string]interface{}, but got: float64")]);
((Tables [] [] []),
  schema_general_map_of_map, value_general_map_of_map_example_ok,
  ExpValue (JObj [((s_ "map_of_maps"), (JObj [((s_ "some_key"), (JObj [((s_ "another_key"), (JBool true))]))]))]));
((Tables [] [] []),
  schema_general_map_of_path, value_general_map_of_path_example_ok,
  ExpValue (JObj [((s_ "map_of_paths"), (JObj [((s_ "some-key"), (JStr (s_ "/some/path")))]))]));
((Tables [] [] []),
  schema_general_map_of_string, value_general_map_of_string_example_fail_invalid_pattern,
  ExpErrors [(s_ "#/map_of_strings/some_key: expected to match ^hello.*$, but got: goodbye")]);
((Tables [((s_ "^hello.*$"), (s_ "hello"))] [] []),
  schema_general_map_of_string, value_general_map_of_string_example_ok,
  ExpValue (JObj [((s_ "map_of_strings"), (JObj [((s_ "some_key"), (JStr (s_ "hello")))]))]));
((Tables [] [] []),
  schema_general_map_of_time_zone, value_general_map_of_time_zone_example_ok,
  ExpValue (JObj [((s_ "map_of_time_zones"), (JObj [((s_ "some-key"), (JStr (s_ "Europe/Zurich")))]))]));
((Tables [] [] []),
  schema_general_optional_in_class, value_general_optional_in_class_example_fail_invalid_type,
  ExpErrors [(s_ "#/with_optionals/some-instance/some_text: expected a string, but got: float64")]);
((Tables [] [] []),
  schema_general_optional_in_class, value_general_optional_in_class_example_ok,
  ExpValue (JObj [((s_ "with_optionals"), (JObj [((s_ "some-instance"), (JObj [((s_ "some_text"), (JStr (s_ "lorem ipsum")))]))]))]));
((Tables [] [] []),
  schema_general_optional_in_class, value_general_optional_in_class_example_ok_unspecified,
  ExpValue (JObj [((s_ "with_optionals"), (JObj [((s_ "some-instance"), (JObj []))]))]));
((Tables [] [] []),
  schema_general_optional_in_embed, value_general_optional_in_embed_example_fail_invalid_type,
  ExpErrors [(s_ "#/some_property/some_text: expected a string, but got: float64")]);
((Tables [] [] []),
  schema_general_optional_in_embed, value_general_optional_in_embed_example_ok,
  ExpValue (JObj [((s_ "some_property"), (JObj [((s_ "some_text"), (JStr (s_ "lorem ipsum")))]))]));
((Tables [] [] []),
  schema_general_optional_in_embed, value_general_optional_in_embed_example_ok_unspecified,
  ExpValue (JObj [((s_ "some_property"), (JObj []))]));
((Tables [] [] []),
  schema_general_optional_in_graph, value_general_optional_in_graph_example_fail_invalid_type,
  ExpErrors [(s_ "#/optional_path: expected a string, but got: float64")]);
((Tables [] [TimeRow (s_ "%H:%M:%S") (s_ "21:22:23") (Dt (1900)%Z (1)%Z (1)%Z (21)%Z (22)%Z (23)%Z (0)%Z None) (s_ "21:22:23");
  TimeRow (s_ "%Y-%m-%d") (s_ "2016-07-03") (Dt (2016)%Z (7)%Z (3)%Z (0)%Z (0)%Z (0)%Z (0)%Z None) (s_ "2016-07-03");
  TimeRow (s_ "%Y-%m-%dT%H:%M:%SZ") (s_ "2016-07-03T21:22:23Z") (Dt (2016)%Z (7)%Z (3)%Z (21)%Z (22)%Z (23)%Z (0)%Z None) (s_ "2016-07-03T21:22:23Z")] []),
  schema_general_optional_in_graph, value_general_optional_in_graph_example_ok,
  ExpValue (JObj [((s_ "empties"), (JObj [((s_ "an_instance_of_empty"), (JObj []))]));
  ((s_ "optional_array"), (JArr [(JInt (3)%Z)]));
  ((s_ "optional_boolean"), (JBool true));
  ((s_ "optional_date"), (JStr (s_ "2016-07-03")));
  ((s_ "optional_datetime"), (JStr (s_ "2016-07-03T21:22:23Z")));
  ((s_ "optional_duration"), (JStr (s_ "P1D")));
  ((s_ "optional_embed"), (JObj []));
  ((s_ "optional_float"), (JFloat (S754_finite false 6980579422424269 (-45)%Z)));
  ((s_ "optional_integer"), (JInt (1984)%Z));
  ((s_ "optional_map"), (JObj [((s_ "some-key"), (JInt (3)%Z))]));
  ((s_ "optional_path"), (JStr (s_ "/some/file")));
  ((s_ "optional_reference"), (JStr (s_ "an_instance_of_empty")));
  ((s_ "optional_string"), (JStr (s_ "some string")));
  ((s_ "optional_time"), (JStr (s_ "21:22:23")));
  ((s_ "optional_time_zone"), (JStr (s_ "Europe/Zurich")))]));
((Tables [] [] []),
  schema_general_optional_in_graph, value_general_optional_in_graph_example_ok_unspecified,
  ExpValue (JObj [((s_ "empties"), (JObj [((s_ "an-instace-of-empty"), (JObj []))]))]));
((Tables [] [] []),
  schema_general_primitive_type_boolean, value_general_primitive_type_boolean_example_fail_invalid_type,
  ExpErrors [(s_ "#/some_bool: expected a bool, but got: string")]);
((Tables [] [] []),
  schema_general_primitive_type_boolean, value_general_primitive_type_boolean_example_ok,
  ExpValue (JObj [((s_ "some_bool"), (JBool true))]));
((Tables [] [] []),
  schema_general_primitive_type_date, value_general_primitive_type_date_example_fail_invalid_format,
  ExpErrors [(s_ "#/some_date: expected layout 2006/01/02, got: 2016!07!03"); (s_ "#/formatless_date: expected layout 2006-01-02, got: 2016!07!03")]);
((Tables [] [TimeRow (s_ "%Y-%m-%d") (s_ "2016-07-03") (Dt (2016)%Z (7)%Z (3)%Z (0)%Z (0)%Z (0)%Z (0)%Z None) (s_ "2016-07-03")] []),
  schema_general_primitive_type_date, value_general_primitive_type_date_example_fail_invalid_type,
  ExpErrors [(s_ "#/some_date: expected a string, but got: float64")]);
((Tables [] [TimeRow (s_ "%Y-%m-%d") (s_ "2016-07-03") (Dt (2016)%Z (7)%Z (3)%Z (0)%Z (0)%Z (0)%Z (0)%Z None) (s_ "2016-07-03");
  TimeRow (s_ "%Y/%m/%d") (s_ "2016/07/03") (Dt (2016)%Z (7)%Z (3)%Z (0)%Z (0)%Z (0)%Z (0)%Z None) (s_ "2016/07/03")] []),
  schema_general_primitive_type_date, value_general_primitive_type_date_example_ok,
  ExpValue (JObj [((s_ "formatless_date"), (JStr (s_ "2016-07-03")));
  ((s_ "some_date"), (JStr (s_ "2016/07/03")))]));
((Tables [] [TimeRow (s_ "%Y/%m/%d %H-%M-%SZ") (s_ "2016/07/03 21-22-23Z") (Dt (2016)%Z (7)%Z (3)%Z (21)%Z (22)%Z (23)%Z (0)%Z None) (s_ "2016/07/03 21-22-23Z")] []),
  schema_general_primitive_type_datetime, value_general_primitive_type_datetime_example_fail_invalid_format,
  ExpErrors [(s_ "#/formatless_datetime: expected layout 2006-01-02T15:04:05Z, got: 2016.07.03 21.22.23")]);
((Tables [] [TimeRow (s_ "%Y-%m-%dT%H:%M:%SZ") (s_ "2016-07-03T21:22:23Z") (Dt (2016)%Z (7)%Z (3)%Z (21)%Z (22)%Z (23)%Z (0)%Z None) (s_ "2016-07-03T21:22:23Z")] []),
  schema_general_primitive_type_datetime, value_general_primitive_type_datetime_example_fail_invalid_type,
  ExpErrors [(s_ "#/some_datetime: expected a string, but got: float64")]);
((Tables [] [TimeRow (s_ "%Y-%m-%dT%H:%M:%SZ") (s_ "2016-07-03T21:22:23Z") (Dt (2016)%Z (7)%Z (3)%Z (21)%Z (22)%Z (23)%Z (0)%Z None) (s_ "2016-07-03T21:22:23Z");
  TimeRow (s_ "%Y/%m/%d %H-%M-%SZ") (s_ "2016/07/03 21-22-23Z") (Dt (2016)%Z (7)%Z (3)%Z (21)%Z (22)%Z (23)%Z (0)%Z None) (s_ "2016/07/03 21-22-23Z")] []),
  schema_general_primitive_type_datetime, value_general_primitive_type_datetime_example_ok,
  ExpValue (JObj [((s_ "formatless_datetime"), (JStr (s_ "2016-07-03T21:22:23Z")));
  ((s_ "some_datetime"), (JStr (s_ "2016/07/03 21-22-23Z")))]));
((Tables [] [] []),
  schema_general_primitive_type_duration, value_general_primitive_type_duration_example_fail_invalid_format,
  ExpErrors [(s_ "#/some_duration: failed to parse duration from ""Period1D"": failed to match the duration pattern")]);
((Tables [] [] []),
  schema_general_primitive_type_duration, value_general_primitive_type_duration_example_fail_invalid_type,
  ExpErrors [(s_ "#/some_duration: expected a string, but got: float64")]);
((Tables [] [] []),
  schema_general_primitive_type_duration, value_general_primitive_type_duration_example_ok,
  ExpValue (JObj [((s_ "some_duration"), (JStr (s_ "P1DT1H1M1S")))]));
((Tables [] [] []),
  schema_general_primitive_type_duration, value_general_primitive_type_duration_example_ok_all_ones,
  ExpValue (JObj [((s_ "some_duration"), (JStr (s_ "P403DT17H19M19S")))]));
((Tables [] [] []),
  schema_general_primitive_type_duration, value_general_primitive_type_duration_example_ok_fractions,
  ExpValue (JObj [((s_ "some_duration"), (JStr (s_ "P444DT2H15M14.900000008S")))]));
((Tables [] [] []),
  schema_general_primitive_type_duration, value_general_primitive_type_duration_example_ok_many_years,
  ExpValue (JObj [((s_ "some_duration"), (JStr (s_ "P10957DT6H35M59.999999872S")))]));
((Tables [] [] []),
  schema_general_primitive_type_duration, value_general_primitive_type_duration_example_ok_negative_duration,
  ExpValue (JObj [((s_ "some_duration"), (JStr (s_ "-P1DT1H1M1S")))]));
((Tables [] [] []),
  schema_general_primitive_type_duration, value_general_primitive_type_duration_example_ok_zeros_after_comma,
  ExpValue (JObj [((s_ "some_duration"), (JStr (s_ "PT1S")))]));
((Tables [] [] []),
  schema_general_primitive_type_float, value_general_primitive_type_float_example_fail_invalid_type,
  ExpErrors [(s_ "#/some_float_gt_0_lt_100: expected a float64, but got: string")]);
((Tables [] [] []),
  schema_general_primitive_type_float, value_general_primitive_type_float_example_fail_out_of_ge_range,
  ExpErrors [(s_ "#/some_float_ge_0_le_100: expected >= 0.000000, but got: -0.100000")]);
((Tables [] [] []),
  schema_general_primitive_type_float, value_general_primitive_type_float_example_fail_out_of_gt_range,
  ExpErrors [(s_ "#/some_float_gt_0_lt_100: expected > 0.000000, but got: -0.000000")]);
((Tables [] [] []),
  schema_general_primitive_type_float, value_general_primitive_type_float_example_fail_out_of_le_range,
  ExpErrors [(s_ "#/some_float_ge_0_le_100: expected <= 100.000000, but got: 100.100000")]);
((Tables [] [] []),
  schema_general_primitive_type_float, value_general_primitive_type_float_example_fail_out_of_lt_range,
  ExpErrors [(s_ "#/some_float_gt_0_lt_100: expected < 100.000000, but got: 100.000000")]);
((Tables [] [] []),
  schema_general_primitive_type_float, value_general_primitive_type_float_example_ok,
  ExpValue (JObj [((s_ "some_float_ge_0_le_100"), (JInt (100)%Z));
  ((s_ "some_float_gt_0_lt_100"), (JFloat (S754_finite false 5953195757430374 (-47)%Z)));
  ((s_ "unconstrained_float"), (JFloat (S754_finite true 8727483496634778 (-42)%Z)))]));
((Tables [] [] []),
  schema_general_primitive_type_integer, value_general_primitive_type_integer_example_fail_invalid_type,
  ExpErrors [(s_ "#/some_int_gt_0_lt_100: expected a float64, but got: string")]);
((Tables [] [] []),
  schema_general_primitive_type_integer, value_general_primitive_type_integer_example_fail_out_of_ge_range,
  ExpErrors [(s_ "#/some_int_ge_0_le_100: expected >= 0, but got: -1")]);
((Tables [] [] []),
  schema_general_primitive_type_integer, value_general_primitive_type_integer_example_fail_out_of_gt_range,
  ExpErrors [(s_ "#/some_int_gt_0_lt_100: expected > 0, but got: 0")]);
((Tables [] [] []),
  schema_general_primitive_type_integer, value_general_primitive_type_integer_example_fail_out_of_le_range,
  ExpErrors [(s_ "#/some_int_ge_0_le_100: expected <= 100, but got: 101")]);
((Tables [] [] []),
  schema_general_primitive_type_integer, value_general_primitive_type_integer_example_fail_out_of_lt_range,
  ExpErrors [(s_ "#/some_int_gt_0_lt_100: expected < 100, but got: 100")]);
((Tables [] [] []),
  schema_general_primitive_type_integer, value_general_primitive_type_integer_example_ok,
  ExpValue (JObj [((s_ "some_int_ge_0_le_100"), (JInt (100)%Z));
  ((s_ "some_int_gt_0_lt_100"), (JInt (42)%Z));
  ((s_ "unconstrained_int"), (JInt (-1984)%Z))]));
((Tables [] [] []),
  schema_general_primitive_type_path, value_general_primitive_type_path_example_fail_invalid_pattern,
  ExpErrors [(s_ "#/some_path: expected to match ^/[a-zA-Z]+-[0-9]+$, but got: /!@# somefolder-123")]);
((Tables [] [] []),
  schema_general_primitive_type_path, value_general_primitive_type_path_example_fail_invalid_type,
  ExpErrors [(s_ "#/some_path: expected a string, but got: float64"); (s_ "#/unconstrained_path: expected a string, but got: float64")]);
((Tables [((s_ "^/[a-zA-Z]+-[0-9]+$"), (s_ "/somefolder-123"))] [] []),
  schema_general_primitive_type_path, value_general_primitive_type_path_example_ok,
  ExpValue (JObj [((s_ "some_path"), (JStr (s_ "/somefolder-123")));
  ((s_ "unconstrained_path"), (JStr [47; 33; 64; 35; 32; 115; 246; 109; 232; 32; 112; 228; 116; 104]%N))]));
((Tables [] [] []),
  schema_general_primitive_type_string, value_general_primitive_type_string_example_fail_invalid_pattern,
  ExpErrors [(s_ "#/some_str: expected to match ^[a-zA-Z]*$, but got: some !@#$ string")]);
((Tables [] [] []),
  schema_general_primitive_type_string, value_general_primitive_type_string_example_fail_invalid_type,
  ExpErrors [(s_ "#/some_str: expected a string, but got: float64"); (s_ "#/unconstrained_str: expected a string, but got: float64")]);
((Tables [((s_ "^[a-zA-Z]*$"), (s_ "somestring"))] [] []),
  schema_general_primitive_type_string, value_general_primitive_type_string_example_ok,
  ExpValue (JObj [((s_ "some_str"), (JStr (s_ "somestring")));
  ((s_ "unconstrained_str"), (JStr [33; 64; 35; 36; 32; 115; 111; 109; 101; 32; 252; 110; 99; 246; 110; 115; 116; 114; 228; 105; 110; 233; 100; 32; 115; 116; 114; 110; 103]%N))]));
((Tables [] [] []),
  schema_general_primitive_type_time, value_general_primitive_type_time_example_fail_invalid_format,
  ExpErrors [(s_ "#/some_time: expected layout 15-04-05, got: 21/22/23"); (s_ "#/formatless_time: expected layout 15:04:05, got: 21/22/23")]);
((Tables [] [TimeRow (s_ "%H:%M:%S") (s_ "21:22:23") (Dt (1900)%Z (1)%Z (1)%Z (21)%Z (22)%Z (23)%Z (0)%Z None) (s_ "21:22:23")] []),
  schema_general_primitive_type_time, value_general_primitive_type_time_example_invalid_type,
  ExpErrors [(s_ "#/some_time: expected a string, but got: float64")]);
((Tables [] [TimeRow (s_ "%H-%M-%S") (s_ "21-22-23") (Dt (1900)%Z (1)%Z (1)%Z (21)%Z (22)%Z (23)%Z (0)%Z None) (s_ "21-22-23");
  TimeRow (s_ "%H:%M:%S") (s_ "21:22:23") (Dt (1900)%Z (1)%Z (1)%Z (21)%Z (22)%Z (23)%Z (0)%Z None) (s_ "21:22:23")] []),
  schema_general_primitive_type_time, value_general_primitive_type_time_example_ok,
  ExpValue (JObj [((s_ "formatless_time"), (JStr (s_ "21:22:23")));
  ((s_ "some_time"), (JStr (s_ "21-22-23")))]));
((Tables [] [] []),
  schema_general_primitive_type_time_zone, value_general_primitive_type_time_zone_example_ok,
  ExpValue (JObj [((s_ "some_time_zone"), (JStr (s_ "Europe/Zurich")))]));
((Tables [] [] []),
  schema_go_primitive_types_float, value_go_primitive_types_float_example_ok_lowest,
  ExpValue (JObj [((s_ "some_float"), (JFloat (S754_finite true 9007199254740991 (971)%Z)))]));
((Tables [] [] []),
  schema_go_primitive_types_float, value_go_primitive_types_float_example_ok_max,
  ExpValue (JObj [((s_ "some_float"), (JFloat (S754_finite false 9007199254740991 (971)%Z)))]));
((Tables [] [] []),
  schema_go_primitive_types_float, value_go_primitive_types_float_example_ok_min,
  ExpValue (JObj [((s_ "some_float"), (JFloat (S754_finite false 4503599627370496 (-1074)%Z)))]));
((Tables [] [] []),
  schema_go_primitive_types_integer, value_go_primitive_types_integer_example_fail_fraction,
  ExpErrors [(s_ "#/some_int: expected a whole number, but got: 3.200000")]);
((Tables [] [] []),
  schema_go_primitive_types_integer, value_go_primitive_types_integer_example_fail_overflow_minus,
  ExpErrors [(s_ "#/some_int: expected the value to fit into int64, but got an overflow: -9223372036854777856.000000")]);
((Tables [] [] []),
  schema_go_primitive_types_integer, value_go_primitive_types_integer_example_fail_overflow_plus,
  ExpErrors [(s_ "#/some_int: expected the value to fit into int64, but got an overflow: 9223372036854775808.000000")]);
((Tables [] [] []),
  schema_go_primitive_types_integer, value_go_primitive_types_integer_example_ok_max,
  ExpValue (JObj [((s_ "some_int"), (JInt (9007199254740992)%Z))]));
((Tables [] [] []),
  schema_go_primitive_types_integer, value_go_primitive_types_integer_example_ok_min,
  ExpValue (JObj [((s_ "some_int"), (JInt (-9223372036854775808)%Z))]));
((Tables [] [] []),
  schema_go_primitive_types_integer, value_go_primitive_types_integer_example_ok_precision_lost,
  ExpValue (JObj [((s_ "some_int"), (JInt (9007199254740992)%Z))]))].

Definition cpp_cases : list (tables * jval * jval * expected) := [
((Tables [((s_ "^[a-zA-Z_][a-zA-Z_0-9]*$"), (s_ "an_instance_of_empty")); ((s_ "^[a-zA-Z_][a-zA-Z_0-9]*$"), (s_ "empties")); ((s_ "^[a-zA-Z_][a-zA-Z_0-9]*$"), (s_ "optional_path"))] [] []),
  schema_cpp_boost_optional, value_cpp_boost_optional_example_fail_invalid_type,
  ExpErrors [(s_ "#/optional_path: Expected a string, but got: int")]);
((Tables [((s_ "^[a-zA-Z_][a-zA-Z_0-9]*$"), (s_ "an_instance_of_empty")); ((s_ "^[a-zA-Z_][a-zA-Z_0-9]*$"), (s_ "empties")); ((s_ "^[a-zA-Z_][a-zA-Z_0-9]*$"), (s_ "optional_array")); ((s_ "^[a-zA-Z_][a-zA-Z_0-9]*$"), (s_ "optional_map")); ((s_ "^[a-zA-Z_][a-zA-Z_0-9]*$"), (s_ "optional_path")); ((s_ "^[a-zA-Z_][a-zA-Z_0-9]*$"), (s_ "optional_reference"))] [] []),
  schema_cpp_boost_optional, value_cpp_boost_optional_example_ok,
  ExpValue (JObj [((s_ "empties"), (JObj [((s_ "an_instance_of_empty"), (JObj []))]));
  ((s_ "optional_array"), (JArr [(JInt (3)%Z)]));
  ((s_ "optional_map"), (JObj [((s_ "some-key"), (JInt (3)%Z))]));
  ((s_ "optional_path"), (JStr (s_ "/some/folder")));
  ((s_ "optional_reference"), (JStr (s_ "an_instance_of_empty")))]));
((Tables [((s_ "^[a-zA-Z_][a-zA-Z_0-9]*$"), (s_ "empties"))] [] []),
  schema_cpp_boost_optional, value_cpp_boost_optional_example_ok_unspecified,
  ExpErrors [(s_ "#/empties: Expected ID to match ^[a-zA-Z_][a-zA-Z_0-9]*$, but got: an-instace-of-empty")]);
((Tables [] [] []),
  schema_cpp_class_error_causes_no_conflict, value_cpp_class_error_causes_no_conflict_example_ok,
  ExpValue (JObj [((s_ "errors"), (JObj [((s_ "an-instance-of-error"), (JObj []))]))]));
((Tables [] [] []),
  schema_cpp_datetime_library_date_date, value_cpp_datetime_library_date_date_example_fail_invalid_format,
  ExpErrors [(s_ "#/some_date: Expected to date::parse %Y/%m/%d, but got: 2016!07!03"); (s_ "#/formatless_date: Expected to date::parse %Y-%m-%d, but got: 2016!07!03")]);
((Tables [] [TimeRow (s_ "%Y-%m-%d") (s_ "2016-07-03") (Dt (2016)%Z (7)%Z (3)%Z (0)%Z (0)%Z (0)%Z (0)%Z None) (s_ "2016-07-03");
  TimeRow (s_ "%Y/%m/%d") (s_ "2016/07/03") (Dt (2016)%Z (7)%Z (3)%Z (0)%Z (0)%Z (0)%Z (0)%Z None) (s_ "2016/07/03")] []),
  schema_cpp_datetime_library_date_date, value_cpp_datetime_library_date_date_example_ok,
  ExpValue (JObj [((s_ "formatless_date"), (JStr (s_ "2016-07-03")));
  ((s_ "some_date"), (JStr (s_ "2016/07/03")))]));
((Tables [] [] []),
  schema_cpp_datetime_library_date_datetime, value_cpp_datetime_library_date_datetime_example_fail_invalid_format,
  ExpErrors [(s_ "#/some_datetime: Expected to date::parse %Y/%m/%d %H-%M-%SZ, but got: 2016!07!03 21!22!23Z"); (s_ "#/formatless_datetime: Expected to date::parse %Y-%m-%dT%H:%M:%SZ, but got: 2016!07!03T21!22!23Z")]);
((Tables [] [TimeRow (s_ "%Y-%m-%dT%H:%M:%SZ") (s_ "2016-07-03T21:22:23Z") (Dt (2016)%Z (7)%Z (3)%Z (21)%Z (22)%Z (23)%Z (0)%Z None) (s_ "2016-07-03T21:22:23Z");
  TimeRow (s_ "%Y/%m/%d %H-%M-%SZ") (s_ "2016/07/03 21-22-23Z") (Dt (2016)%Z (7)%Z (3)%Z (21)%Z (22)%Z (23)%Z (0)%Z None) (s_ "2016/07/03 21-22-23Z")] []),
  schema_cpp_datetime_library_date_datetime, value_cpp_datetime_library_date_datetime_example_ok,
  ExpValue (JObj [((s_ "formatless_datetime"), (JStr (s_ "2016-07-03T21:22:23Z")));
  ((s_ "some_datetime"), (JStr (s_ "2016/07/03 21-22-23Z")))]));
((Tables [] [] []),
  schema_cpp_datetime_library_date_optional_timezone, value_cpp_datetime_library_date_optional_timezone_example_ok,
  ExpValue (JObj [((s_ "some_time_zone"), (JStr (s_ "Europe/Zurich")))]));
((Tables [] [] []),
  schema_cpp_datetime_library_date_time, value_cpp_datetime_library_date_time_example_fail_invalid_format,
  ExpErrors [(s_ "#/some_time: Expected to date::parse %H-%M-%S, but got: 21!22!23"); (s_ "#/formatless_time: Expected to date::parse %H:%M:%S, but got: 21!22!23")]);
((Tables [] [TimeRow (s_ "%H-%M-%S") (s_ "21-22-23") (Dt (1900)%Z (1)%Z (1)%Z (21)%Z (22)%Z (23)%Z (0)%Z None) (s_ "21-22-23");
  TimeRow (s_ "%H:%M:%S") (s_ "21:22:23") (Dt (1900)%Z (1)%Z (1)%Z (21)%Z (22)%Z (23)%Z (0)%Z None) (s_ "21:22:23")] []),
  schema_cpp_datetime_library_date_time, value_cpp_datetime_library_date_time_example_ok,
  ExpValue (JObj [((s_ "formatless_time"), (JStr (s_ "21:22:23")));
  ((s_ "some_time"), (JStr (s_ "21-22-23")))]));
((Tables [] [] [(s_ "Singidunum/Taurunum")]),
  schema_cpp_datetime_library_date_timezone, value_cpp_datetime_library_date_timezone_example_fail_invalid_timezone,
  ExpErrors [(s_ "#/some_time_zone: Expected a valid IANA time zone, but got: Singidunum/Taurunum")]);
((Tables [] [] []),
  schema_cpp_datetime_library_date_timezone, value_cpp_datetime_library_date_timezone_example_ok,
  ExpValue (JObj [((s_ "some_time_zone"), (JStr (s_ "Europe/Zurich")))]));
((Tables [] [] []),
  schema_cpp_primitive_types_duration, value_cpp_primitive_types_duration_example_fail_precision_lost,
  ExpErrors [(s_ "#/some_duration: Invalid duration: converting the duration to nanoseconds results in loss of precision: PT0.0000000001S")]);
((Tables [] [] []),
  schema_cpp_primitive_types_duration, value_cpp_primitive_types_duration_example_fail_too_many_years,
  ExpErrors [(s_ "#/some_duration: Invalid duration: duration overflows as nanoseconds: P300Y")]);
((Tables [] [] []),
  schema_cpp_primitive_types_float, value_cpp_primitive_types_float_example_ok_lowest,
  ExpValue (JObj [((s_ "some_float"), (JFloat (S754_finite true 9007199254740991 (971)%Z)))]));
((Tables [] [] []),
  schema_cpp_primitive_types_float, value_cpp_primitive_types_float_example_ok_max,
  ExpValue (JObj [((s_ "some_float"), (JFloat (S754_finite false 9007199254740991 (971)%Z)))]));
((Tables [] [] []),
  schema_cpp_primitive_types_float, value_cpp_primitive_types_float_example_ok_min,
  ExpValue (JObj [((s_ "some_float"), (JFloat (S754_finite false 4503599627370496 (-1074)%Z)))]));
((Tables [] [] []),
  schema_cpp_primitive_types_integer, value_cpp_primitive_types_integer_example_fail_fraction,
  ExpErrors [(s_ "#/some_int: Expected an int64, but got: real")]);
((Tables [] [] []),
  schema_cpp_primitive_types_integer, value_cpp_primitive_types_integer_example_fail_overflow_minus_cpp,
  ExpErrors [(s_ "#/some_int: Expected an int64, but got: real")]);
((Tables [] [] []),
  schema_cpp_primitive_types_integer, value_cpp_primitive_types_integer_example_fail_overflow_plus,
  ExpErrors [(s_ "#/some_int: Expected an int64, but got: uint")]);
((Tables [] [] []),
  schema_cpp_primitive_types_integer, value_cpp_primitive_types_integer_example_ok_max,
  ExpValue (JObj [((s_ "some_int"), (JInt (9223372036854775807)%Z))]));
((Tables [] [] []),
  schema_cpp_primitive_types_integer, value_cpp_primitive_types_integer_example_ok_min,
  ExpValue (JObj [((s_ "some_int"), (JInt (-9223372036854775808)%Z))]));
((Tables [] [TimeRow (s_ "%Y-%m-%d") (s_ "1983-10-24") (Dt (1983)%Z (10)%Z (24)%Z (0)%Z (0)%Z (0)%Z (0)%Z None) (s_ "1983-10-24");
  TimeRow (s_ "%Y-%m-%d") (s_ "2016-07-03") (Dt (2016)%Z (7)%Z (3)%Z (0)%Z (0)%Z (0)%Z (0)%Z None) (s_ "2016-07-03")] []),
  schema_docs_schema_introductory_example, value_docs_schema_introductory_example_example_ok,
  ExpValue (JObj [((s_ "maintainer"), (JStr (s_ "alice")));
  ((s_ "persons"), (JObj [((s_ "alice"), (JObj [((s_ "address"), (JObj [((s_ "text"), (JStr (s_ "Some street 12, Some City, Some Country")))]));
  ((s_ "birthday"), (JStr (s_ "1983-10-24")));
  ((s_ "full_name"), (JStr (s_ "Alice Doe")))]));
  ((s_ "bob"), (JObj [((s_ "address"), (JObj [((s_ "text"), (JStr (s_ "Another street 36, Another City, Another Country")))]));
  ((s_ "birthday"), (JStr (s_ "2016-07-03")));
  ((s_ "full_name"), (JStr (s_ "Bob Johnson")))]))]))]));
((Tables [] [] []),
  schema_general_array_fails_invalid_types, value_general_array_fails_invalid_types_example_fail_invalid_type,
  ExpErrors [(s_ "#/array_of_booleans: Expected an array, but got: bool")]);
((Tables [] [] []),
  schema_general_array_fails_invalid_types, value_general_array_fails_invalid_types_example_fail_nested_invalid_type,
  ExpErrors [(s_ "#/array_of_booleans/0: Expected a bool, but got: int")]);
((Tables [] [] []),
  schema_general_array_maximum_size, value_general_array_maximum_size_example_fail_invalid_size,
  ExpErrors [(s_ "#/array_of_booleans: Expected an array of maximum size 1, but got: 2")]);
((Tables [] [] []),
  schema_general_array_maximum_size, value_general_array_maximum_size_example_ok,
  ExpValue (JObj [((s_ "array_of_booleans"), (JArr [(JBool true)]))]));
((Tables [] [] []),
  schema_general_array_minimum_size, value_general_array_minimum_size_example_fail_invalid_size,
  ExpErrors [(s_ "#/array_of_booleans: Expected an array of minimum size 1, but got: 0")]);
((Tables [] [] []),
  schema_general_array_minimum_size, value_general_array_minimum_size_example_ok,
  ExpValue (JObj [((s_ "array_of_booleans"), (JArr [(JBool true)]))]));
((Tables [] [] []),
  schema_general_array_of_array, value_general_array_of_array_example_fail_invalid_type,
  ExpErrors [(s_ "#/array_of_arrays: Expected an array, but got: bool")]);
((Tables [] [] []),
  schema_general_array_of_array, value_general_array_of_array_example_fail_nested_error,
  ExpErrors [(s_ "#/array_of_arrays/0/0: Expected a bool, but got: int")]);
((Tables [] [] []),
  schema_general_array_of_array, value_general_array_of_array_example_ok,
  ExpValue (JObj [((s_ "array_of_arrays"), (JArr [(JArr [(JBool true)])]))]));
((Tables [] [] []),
  schema_general_array_of_boolean, value_general_array_of_boolean_example_ok,
  ExpValue (JObj [((s_ "array_of_booleans"), (JArr [(JBool true)]))]));
((Tables [] [] []),
  schema_general_array_of_class_ref, value_general_array_of_class_ref_example_ok,
  ExpValue (JObj [((s_ "array_of_class_refs"), (JArr [(JStr (s_ "some-empty"))]));
  ((s_ "empties"), (JObj [((s_ "some-empty"), (JObj []))]))]));
((Tables [] [TimeRow (s_ "%Y-%m-%d") (s_ "2016-07-03") (Dt (2016)%Z (7)%Z (3)%Z (0)%Z (0)%Z (0)%Z (0)%Z None) (s_ "2016-07-03")] []),
  schema_general_array_of_date, value_general_array_of_date_example_ok,
  ExpValue (JObj [((s_ "array_of_dates"), (JArr [(JStr (s_ "2016-07-03"))]))]));
((Tables [] [TimeRow (s_ "%Y-%m-%dT%H:%M:%SZ") (s_ "2016-07-03T21:22:23Z") (Dt (2016)%Z (7)%Z (3)%Z (21)%Z (22)%Z (23)%Z (0)%Z None) (s_ "2016-07-03T21:22:23Z")] []),
  schema_general_array_of_datetime, value_general_array_of_datetime_example_ok,
  ExpValue (JObj [((s_ "array_of_datetimes"), (JArr [(JStr (s_ "2016-07-03T21:22:23Z"))]))]));
((Tables [] [] []),
  schema_general_array_of_duration, value_general_array_of_duration_example_ok,
  ExpValue (JObj [((s_ "array_of_durations"), (JArr [(JStr (s_ "P1D"))]))]));
((Tables [] [] []),
  schema_general_array_of_embed, value_general_array_of_embed_example_ok,
  ExpValue (JObj [((s_ "array_of_embeds"), (JArr [(JObj [])]))]));
((Tables [] [] []),
  schema_general_array_of_float, value_general_array_of_float_example_ok,
  ExpValue (JObj [((s_ "array_of_floats"), (JArr [(JFloat (S754_finite false 4953959590107546 (-52)%Z))]))]));
((Tables [] [] []),
  schema_general_array_of_integer, value_general_array_of_integer_example_ok,
  ExpValue (JObj [((s_ "array_of_integers"), (JArr [(JInt (1984)%Z)]))]));
((Tables [] [] []),
  schema_general_array_of_map, value_general_array_of_map_example_ok,
  ExpValue (JObj [((s_ "array_of_maps"), (JArr [(JObj [((s_ "some-key"), (JBool true))])]))]));
((Tables [] [] []),
  schema_general_array_of_path, value_general_array_of_path_example_ok,
  ExpValue (JObj [((s_ "array_of_paths"), (JArr [(JStr (s_ "/some/path"))]))]));
((Tables [] [] []),
  schema_general_array_of_string, value_general_array_of_string_example_ok,
  ExpValue (JObj [((s_ "array_of_strings"), (JArr [(JStr (s_ "some string"))]))]));
((Tables [] [TimeRow (s_ "%H:%M:%S") (s_ "21:22:23") (Dt (1900)%Z (1)%Z (1)%Z (21)%Z (22)%Z (23)%Z (0)%Z None) (s_ "21:22:23")] []),
  schema_general_array_of_time, value_general_array_of_time_example_ok,
  ExpValue (JObj [((s_ "array_of_times"), (JArr [(JStr (s_ "21:22:23"))]))]));
((Tables [] [] []),
  schema_general_array_of_time_zone, value_general_array_of_time_zone_example_ok,
  ExpValue (JObj [((s_ "array_of_time_zones"), (JArr [(JStr (s_ "Europe/Zurich"))]))]));
((Tables [((s_ "^[a-zA-Z_\-][a-zA-Z_0-9\-]*$"), (s_ "a-non-existing-instance-of-empty")); ((s_ "^[a-zA-Z_\-][a-zA-Z_0-9\-]*$"), (s_ "an-instance-of-empty")); ((s_ "^[a-zA-Z_\-][a-zA-Z_0-9\-]*$"), (s_ "an-instance-of-with-reference")); ((s_ "^[a-zA-Z_\-][a-zA-Z_0-9\-]*$"), (s_ "array_of_empties")); ((s_ "^[a-zA-Z_\-][a-zA-Z_0-9\-]*$"), (s_ "empties")); ((s_ "^[a-zA-Z_\-][a-zA-Z_0-9\-]*$"), (s_ "global_reference_to_an_empty")); ((s_ "^[a-zA-Z_\-][a-zA-Z_0-9\-]*$"), (s_ "map_of_empties")); ((s_ "^[a-zA-Z_\-][a-zA-Z_0-9\-]*$"), (s_ "reference_to_an_empty")); ((s_ "^[a-zA-Z_\-][a-zA-Z_0-9\-]*$"), (s_ "some-key")); ((s_ "^[a-zA-Z_\-][a-zA-Z_0-9\-]*$"), (s_ "with_references"))] [] []),
  schema_general_class, value_general_class_example_fail_dangling_reference,
  ExpErrors [(s_ "#/global_reference_to_an_empty: Reference to an instance of class Empty not found: a-non-existing-instance-of-empty")]);
((Tables [((s_ "^[a-zA-Z_\-][a-zA-Z_0-9\-]*$"), (s_ "an-instance-of-empty")); ((s_ "^[a-zA-Z_\-][a-zA-Z_0-9\-]*$"), (s_ "an-instance-of-with-reference")); ((s_ "^[a-zA-Z_\-][a-zA-Z_0-9\-]*$"), (s_ "array_of_empties")); ((s_ "^[a-zA-Z_\-][a-zA-Z_0-9\-]*$"), (s_ "empties")); ((s_ "^[a-zA-Z_\-][a-zA-Z_0-9\-]*$"), (s_ "global_reference_to_an_empty")); ((s_ "^[a-zA-Z_\-][a-zA-Z_0-9\-]*$"), (s_ "map_of_empties")); ((s_ "^[a-zA-Z_\-][a-zA-Z_0-9\-]*$"), (s_ "reference_to_an_empty")); ((s_ "^[a-zA-Z_\-][a-zA-Z_0-9\-]*$"), (s_ "some-key")); ((s_ "^[a-zA-Z_\-][a-zA-Z_0-9\-]*$"), (s_ "with_references"))] [] []),
  schema_general_class, value_general_class_example_fail_error_in_instance,
  ExpErrors [(s_ "#/with_references/an-instance-of-with-reference/reference_to_an_empty: Expected a string, but got: int")]);
((Tables [((s_ "^[a-zA-Z_\-][a-zA-Z_0-9\-]*$"), (s_ "empties")); ((s_ "^[a-zA-Z_\-][a-zA-Z_0-9\-]*$"), (s_ "global_reference_to_an_empty"))] [] []),
  schema_general_class, value_general_class_example_fail_invalid_instance_id,
  ExpErrors [(s_ "#/empties: Expected ID to match ^[a-zA-Z_\-][a-zA-Z_0-9\-]*$, but got: an/instance/of/empty")]);
((Tables [((s_ "^[a-zA-Z_\-][a-zA-Z_0-9\-]*$"), (s_ "an-instance-of-empty")); ((s_ "^[a-zA-Z_\-][a-zA-Z_0-9\-]*$"), (s_ "empties")); ((s_ "^[a-zA-Z_\-][a-zA-Z_0-9\-]*$"), (s_ "global_reference_to_an_empty")); ((s_ "^[a-zA-Z_\-][a-zA-Z_0-9\-]*$"), (s_ "with_references"))] [] []),
  schema_general_class, value_general_class_example_fail_invalid_type_of_class_registry,
  ExpErrors [(s_ "#/with_references: Expected an object, but got: array")]);
((Tables [((s_ "^[a-zA-Z_\-][a-zA-Z_0-9\-]*$"), (s_ "an-instance-of-empty")); ((s_ "^[a-zA-Z_\-][a-zA-Z_0-9\-]*$"), (s_ "empties")); ((s_ "^[a-zA-Z_\-][a-zA-Z_0-9\-]*$"), (s_ "global_reference_to_an_empty"))] [] []),
  schema_general_class, value_general_class_example_fail_invalid_type_of_instance,
  ExpErrors [(s_ "#/empties/an-instance-of-empty: Expected an object, but got: int")]);
((Tables [((s_ "^[a-zA-Z_\-][a-zA-Z_0-9\-]*$"), (s_ "an-instance-of-empty")); ((s_ "^[a-zA-Z_\-][a-zA-Z_0-9\-]*$"), (s_ "empties")); ((s_ "^[a-zA-Z_\-][a-zA-Z_0-9\-]*$"), (s_ "global_reference_to_an_empty"))] [] []),
  schema_general_class, value_general_class_example_fail_invalid_type_of_reference,
  ExpErrors [(s_ "#/global_reference_to_an_empty: Expected a string, but got: int")]);
((Tables [((s_ "^[a-zA-Z_\-][a-zA-Z_0-9\-]*$"), (s_ "an-instance-of-empty")); ((s_ "^[a-zA-Z_\-][a-zA-Z_0-9\-]*$"), (s_ "an-instance-of-with-reference")); ((s_ "^[a-zA-Z_\-][a-zA-Z_0-9\-]*$"), (s_ "array_of_empties")); ((s_ "^[a-zA-Z_\-][a-zA-Z_0-9\-]*$"), (s_ "empties")); ((s_ "^[a-zA-Z_\-][a-zA-Z_0-9\-]*$"), (s_ "global_reference_to_an_empty")); ((s_ "^[a-zA-Z_\-][a-zA-Z_0-9\-]*$"), (s_ "map_of_empties")); ((s_ "^[a-zA-Z_\-][a-zA-Z_0-9\-]*$"), (s_ "reference_to_an_empty")); ((s_ "^[a-zA-Z_\-][a-zA-Z_0-9\-]*$"), (s_ "some-key")); ((s_ "^[a-zA-Z_\-][a-zA-Z_0-9\-]*$"), (s_ "with_references"))] [] []),
  schema_general_class, value_general_class_example_ok,
  ExpValue (JObj [((s_ "empties"), (JObj [((s_ "an-instance-of-empty"), (JObj []))]));
  ((s_ "global_reference_to_an_empty"), (JStr (s_ "an-instance-of-empty")));
  ((s_ "with_references"), (JObj [((s_ "an-instance-of-with-reference"), (JObj [((s_ "array_of_empties"), (JArr [(JStr (s_ "an-instance-of-empty"))]));
  ((s_ "map_of_empties"), (JObj [((s_ "some-key"), (JStr (s_ "an-instance-of-empty")))]));
  ((s_ "reference_to_an_empty"), (JStr (s_ "an-instance-of-empty")))]))]))]));
((Tables [((s_ "^[a-zA-Z_\-][a-zA-Z_0-9\-]*$"), (s_ "an-instance-of-empty")); ((s_ "^[a-zA-Z_\-][a-zA-Z_0-9\-]*$"), (s_ "empties")); ((s_ "^[a-zA-Z_\-][a-zA-Z_0-9\-]*$"), (s_ "global_reference_to_an_empty"))] [] []),
  schema_general_class, value_general_class_example_ok_missing_registry,
  ExpValue (JObj [((s_ "empties"), (JObj [((s_ "an-instance-of-empty"), (JObj []))]));
  ((s_ "global_reference_to_an_empty"), (JStr (s_ "an-instance-of-empty")))]));
((Tables [] [] []),
  schema_general_class_ref_in_embed, value_general_class_ref_in_embed_example_ok,
  ExpValue (JObj [((s_ "empties"), (JObj [((s_ "an-instance-of-empty"), (JObj []))]));
  ((s_ "some_embed"), (JObj [((s_ "reference_to_empty"), (JStr (s_ "an-instance-of-empty")))]))]));
((Tables [] [] []),
  schema_general_embed, value_general_embed_example_fail_invalid_property,
  ExpErrors [(s_ "#/some_embed/empty: Expected an object, but got: int")]);
((Tables [] [] []),
  schema_general_embed, value_general_embed_example_fail_invalid_type,
  ExpErrors [(s_ "#/some_embed: Expected an object, but got: int")]);
((Tables [] [] []),
  schema_general_embed, value_general_embed_example_ok,
  ExpValue (JObj [((s_ "some_embed"), (JObj [((s_ "empty"), (JObj []))]))]));
((Tables [] [] []),
  schema_general_json_property, value_general_json_property_example_fail_missing_property,
  ExpErrors [(s_ "#: Property is missing: SOME-BOOL")]);
((Tables [] [] []),
  schema_general_json_property, value_general_json_property_example_ok,
  ExpValue (JObj [((s_ "SOME-BOOL"), (JBool true))]));
((Tables [] [] []),
  schema_general_map_invalid_type, value_general_map_invalid_type_example_invalid_type,
  ExpErrors [(s_ "#/map_of_booleans: Expected an object, but got: int")]);
((Tables [] [] []),
  schema_general_map_of_array, value_general_map_of_array_example_invalid_nested_type,
  ExpErrors [(s_ "#/map_of_arrays/some_key/0: Expected a bool, but got: int")]);
((Tables [] [] []),
  schema_general_map_of_array, value_general_map_of_array_example_invalid_type,
  ExpErrors [(s_ "#/map_of_arrays/some_key: Expected an array, but got: int")]);
((Tables [] [] []),
  schema_general_map_of_array, value_general_map_of_array_example_ok,
  ExpValue (JObj [((s_ "map_of_arrays"), (JObj [((s_ "some_key"), (JArr [(JBool true)]))]))]));
((Tables [] [] []),
  schema_general_map_of_boolean, value_general_map_of_boolean_example_invalid_value_type,
  ExpErrors [(s_ "#/map_of_booleans/some_key: Expected a bool, but got: int")]);
((Tables [] [] []),
  schema_general_map_of_boolean, value_general_map_of_boolean_example_ok,
  ExpValue (JObj [((s_ "map_of_booleans"), (JObj [((s_ "some_key"), (JBool true))]))]));
((Tables [] [] []),
  schema_general_map_of_class_ref, value_general_map_of_class_ref_example_invalid_reference,
  ExpErrors [(s_ "#/map_of_class_refs/some-key: Reference to an instance of class Empty not found: some-non-existing-empty")]);
((Tables [] [] []),
  schema_general_map_of_class_ref, value_general_map_of_class_ref_example_invalid_type,
  ExpErrors [(s_ "#/map_of_class_refs/some-key: Expected a string, but got: int")]);
((Tables [] [] []),
  schema_general_map_of_class_ref, value_general_map_of_class_ref_example_ok,
  ExpValue (JObj [((s_ "empties"), (JObj [((s_ "some-empty"), (JObj []))]));
  ((s_ "map_of_class_refs"), (JObj [((s_ "some-key"), (JStr (s_ "some-empty")))]))]));
((Tables [] [] []),
  schema_general_map_of_date, value_general_map_of_date_example_fail_invalid_format,
  ExpErrors [(s_ "#/map_of_dates/some_key: Expected to strptime %Y-%m-%d, but got: 2016/07/03")]);
((Tables [] [TimeRow (s_ "%Y-%m-%d") (s_ "2016-07-03") (Dt (2016)%Z (7)%Z (3)%Z (0)%Z (0)%Z (0)%Z (0)%Z None) (s_ "2016-07-03")] []),
  schema_general_map_of_date, value_general_map_of_date_example_ok,
  ExpValue (JObj [((s_ "map_of_dates"), (JObj [((s_ "some_key"), (JStr (s_ "2016-07-03")))]))]));
((Tables [] [] []),
  schema_general_map_of_datetime, value_general_map_of_datetime_example_fail_invalid_format,
  ExpErrors [(s_ "#/map_of_datetimes/some_key: Expected to strptime %Y-%m-%dT%H:%M:%SZ, but got: 2016/07/03 21-22-23")]);
((Tables [] [TimeRow (s_ "%Y-%m-%dT%H:%M:%SZ") (s_ "2016-07-03T21:22:23Z") (Dt (2016)%Z (7)%Z (3)%Z (21)%Z (22)%Z (23)%Z (0)%Z None) (s_ "2016-07-03T21:22:23Z")] []),
  schema_general_map_of_datetime, value_general_map_of_datetime_example_ok,
  ExpValue (JObj [((s_ "map_of_datetimes"), (JObj [((s_ "some_key"), (JStr (s_ "2016-07-03T21:22:23Z")))]))]));
((Tables [] [] []),
  schema_general_map_of_duration, value_general_map_of_duration_example_ok,
  ExpValue (JObj [((s_ "map_of_durations"), (JObj [((s_ "some-key"), (JStr (s_ "P1D")))]))]));
((Tables [] [] []),
  schema_general_map_of_embed, value_general_map_of_embed_example_invalid_property_in_embed,
  ExpErrors [(s_ "#/map_of_embeds/some-key/some_property: Expected a bool, but got: int")]);
((Tables [] [] []),
  schema_general_map_of_embed, value_general_map_of_embed_example_invalid_type,
  ExpErrors [(s_ "#/map_of_embeds/some-key: Expected an object, but got: int")]);
((Tables [] [] []),
  schema_general_map_of_embed, value_general_map_of_embed_example_ok,
  ExpValue (JObj [((s_ "map_of_embeds"), (JObj [((s_ "some-key"), (JObj [((s_ "some_property"), (JBool true))]))]))]));
((Tables [] [] []),
  schema_general_map_of_float, value_general_map_of_float_example_ok,
  ExpValue (JObj [((s_ "map_of_floats"), (JObj [((s_ "some-key"), (JFloat (S754_finite false 4953959590107546 (-52)%Z)))]))]));
((Tables [] [] []),
  schema_general_map_of_integer, value_general_map_of_integer_example_ok,
  ExpValue (JObj [((s_ "map_of_integers"), (JObj [((s_ "some-key"), (JInt (1984)%Z))]))]));
((Tables [] [] []),
  schema_general_map_of_map, value_general_map_of_map_example_invalid_nested_type,
  ExpErrors [(s_ "#/map_of_maps/some_key/another_key: Expected a bool, but got: int")]);
((Tables [] [] []),
  schema_general_map_of_map, value_general_map_of_map_example_invalid_type,
  ExpErrors [(s_ "#/map_of_maps/some_key: Expected an object, but got: int")]);
((Tables [] [] []),
  schema_general_map_of_map, value_general_map_of_map_example_ok,
  ExpValue (JObj [((s_ "map_of_maps"), (JObj [((s_ "some_key"), (JObj [((s_ "another_key"), (JBool true))]))]))]));
((Tables [] [] []),
  schema_general_map_of_path, value_general_map_of_path_example_ok,
  ExpValue (JObj [((s_ "map_of_paths"), (JObj [((s_ "some-key"), (JStr (s_ "/some/path")))]))]));
((Tables [] [] []),
  schema_general_map_of_string, value_general_map_of_string_example_fail_invalid_pattern,
  ExpErrors [(s_ "#/map_of_strings/some_key: Expected to match ^hello.*$, but got: goodbye")]);
((Tables [((s_ "^hello.*$"), (s_ "hello"))] [] []),
  schema_general_map_of_string, value_general_map_of_string_example_ok,
  ExpValue (JObj [((s_ "map_of_strings"), (JObj [((s_ "some_key"), (JStr (s_ "hello")))]))]));
((Tables [] [] []),
  schema_general_map_of_time_zone, value_general_map_of_time_zone_example_ok,
  ExpValue (JObj [((s_ "map_of_time_zones"), (JObj [((s_ "some-key"), (JStr (s_ "Europe/Zurich")))]))]));
((Tables [] [] []),
  schema_general_optional_in_class, value_general_optional_in_class_example_fail_invalid_type,
  ExpErrors [(s_ "#/with_optionals/some-instance/some_text: Expected a string, but got: int")]);
((Tables [] [] []),
  schema_general_optional_in_class, value_general_optional_in_class_example_ok,
  ExpValue (JObj [((s_ "with_optionals"), (JObj [((s_ "some-instance"), (JObj [((s_ "some_text"), (JStr (s_ "lorem ipsum")))]))]))]));
((Tables [] [] []),
  schema_general_optional_in_class, value_general_optional_in_class_example_ok_unspecified,
  ExpValue (JObj [((s_ "with_optionals"), (JObj [((s_ "some-instance"), JNull)]))]));
((Tables [] [] []),
  schema_general_optional_in_embed, value_general_optional_in_embed_example_fail_invalid_type,
  ExpErrors [(s_ "#/some_property/some_text: Expected a string, but got: int")]);
((Tables [] [] []),
  schema_general_optional_in_embed, value_general_optional_in_embed_example_ok,
  ExpValue (JObj [((s_ "some_property"), (JObj [((s_ "some_text"), (JStr (s_ "lorem ipsum")))]))]));
((Tables [] [] []),
  schema_general_optional_in_embed, value_general_optional_in_embed_example_ok_unspecified,
  ExpValue (JObj [((s_ "some_property"), JNull)]));
((Tables [] [] []),
  schema_general_optional_in_graph, value_general_optional_in_graph_example_fail_invalid_type,
  ExpErrors [(s_ "#/optional_path: Expected a string, but got: int")]);
((Tables [] [TimeRow (s_ "%H:%M:%S") (s_ "21:22:23") (Dt (1900)%Z (1)%Z (1)%Z (21)%Z (22)%Z (23)%Z (0)%Z None) (s_ "21:22:23");
  TimeRow (s_ "%Y-%m-%d") (s_ "2016-07-03") (Dt (2016)%Z (7)%Z (3)%Z (0)%Z (0)%Z (0)%Z (0)%Z None) (s_ "2016-07-03");
  TimeRow (s_ "%Y-%m-%dT%H:%M:%SZ") (s_ "2016-07-03T21:22:23Z") (Dt (2016)%Z (7)%Z (3)%Z (21)%Z (22)%Z (23)%Z (0)%Z None) (s_ "2016-07-03T21:22:23Z")] []),
  schema_general_optional_in_graph, value_general_optional_in_graph_example_ok,
  ExpValue (JObj [((s_ "empties"), (JObj [((s_ "an_instance_of_empty"), (JObj []))]));
  ((s_ "optional_array"), (JArr [(JInt (3)%Z)]));
  ((s_ "optional_boolean"), (JBool true));
  ((s_ "optional_date"), (JStr (s_ "2016-07-03")));
  ((s_ "optional_datetime"), (JStr (s_ "2016-07-03T21:22:23Z")));
  ((s_ "optional_duration"), (JStr (s_ "P1D")));
  ((s_ "optional_embed"), (JObj []));
  ((s_ "optional_float"), (JFloat (S754_finite false 6980579422424269 (-45)%Z)));
  ((s_ "optional_integer"), (JInt (1984)%Z));
  ((s_ "optional_map"), (JObj [((s_ "some-key"), (JInt (3)%Z))]));
  ((s_ "optional_path"), (JStr (s_ "/some/file")));
  ((s_ "optional_reference"), (JStr (s_ "an_instance_of_empty")));
  ((s_ "optional_string"), (JStr (s_ "some string")));
  ((s_ "optional_time"), (JStr (s_ "21:22:23")));
  ((s_ "optional_time_zone"), (JStr (s_ "Europe/Zurich")))]));
((Tables [] [] []),
  schema_general_optional_in_graph, value_general_optional_in_graph_example_ok_unspecified,
  ExpValue (JObj [((s_ "empties"), (JObj [((s_ "an-instace-of-empty"), (JObj []))]))]));
((Tables [] [] []),
  schema_general_primitive_type_boolean, value_general_primitive_type_boolean_example_fail_invalid_type,
  ExpErrors [(s_ "#/some_bool: Expected a bool, but got: string")]);
((Tables [] [] []),
  schema_general_primitive_type_boolean, value_general_primitive_type_boolean_example_ok,
  ExpValue (JObj [((s_ "some_bool"), (JBool true))]));
((Tables [] [] []),
  schema_general_primitive_type_date, value_general_primitive_type_date_example_fail_invalid_format,
  ExpErrors [(s_ "#/some_date: Expected to strptime %Y/%m/%d, but got: 2016!07!03"); (s_ "#/formatless_date: Expected to strptime %Y-%m-%d, but got: 2016!07!03")]);
((Tables [] [TimeRow (s_ "%Y-%m-%d") (s_ "2016-07-03") (Dt (2016)%Z (7)%Z (3)%Z (0)%Z (0)%Z (0)%Z (0)%Z None) (s_ "2016-07-03")] []),
  schema_general_primitive_type_date, value_general_primitive_type_date_example_fail_invalid_type,
  ExpErrors [(s_ "#/some_date: Expected a string, but got: int")]);
((Tables [] [TimeRow (s_ "%Y-%m-%d") (s_ "2016-07-03") (Dt (2016)%Z (7)%Z (3)%Z (0)%Z (0)%Z (0)%Z (0)%Z None) (s_ "2016-07-03");
  TimeRow (s_ "%Y/%m/%d") (s_ "2016/07/03") (Dt (2016)%Z (7)%Z (3)%Z (0)%Z (0)%Z (0)%Z (0)%Z None) (s_ "2016/07/03")] []),
  schema_general_primitive_type_date, value_general_primitive_type_date_example_ok,
  ExpValue (JObj [((s_ "formatless_date"), (JStr (s_ "2016-07-03")));
  ((s_ "some_date"), (JStr (s_ "2016/07/03")))]));
((Tables [] [TimeRow (s_ "%Y/%m/%d %H-%M-%SZ") (s_ "2016/07/03 21-22-23Z") (Dt (2016)%Z (7)%Z (3)%Z (21)%Z (22)%Z (23)%Z (0)%Z None) (s_ "2016/07/03 21-22-23Z")] []),
  schema_general_primitive_type_datetime, value_general_primitive_type_datetime_example_fail_invalid_format,
  ExpErrors [(s_ "#/formatless_datetime: Expected to strptime %Y-%m-%dT%H:%M:%SZ, but got: 2016.07.03 21.22.23")]);
((Tables [] [TimeRow (s_ "%Y-%m-%dT%H:%M:%SZ") (s_ "2016-07-03T21:22:23Z") (Dt (2016)%Z (7)%Z (3)%Z (21)%Z (22)%Z (23)%Z (0)%Z None) (s_ "2016-07-03T21:22:23Z")] []),
  schema_general_primitive_type_datetime, value_general_primitive_type_datetime_example_fail_invalid_type,
  ExpErrors [(s_ "#/some_datetime: Expected a string, but got: int")]);
((Tables [] [TimeRow (s_ "%Y-%m-%dT%H:%M:%SZ") (s_ "2016-07-03T21:22:23Z") (Dt (2016)%Z (7)%Z (3)%Z (21)%Z (22)%Z (23)%Z (0)%Z None) (s_ "2016-07-03T21:22:23Z");
  TimeRow (s_ "%Y/%m/%d %H-%M-%SZ") (s_ "2016/07/03 21-22-23Z") (Dt (2016)%Z (7)%Z (3)%Z (21)%Z (22)%Z (23)%Z (0)%Z None) (s_ "2016/07/03 21-22-23Z")] []),
  schema_general_primitive_type_datetime, value_general_primitive_type_datetime_example_ok,
  ExpValue (JObj [((s_ "formatless_datetime"), (JStr (s_ "2016-07-03T21:22:23Z")));
  ((s_ "some_datetime"), (JStr (s_ "2016/07/03 21-22-23Z")))]));
((Tables [] [] []),
  schema_general_primitive_type_duration, value_general_primitive_type_duration_example_fail_invalid_format,
  ExpErrors [(s_ "#/some_duration: Invalid duration: failed to match the duration: Period1D")]);
((Tables [] [] []),
  schema_general_primitive_type_duration, value_general_primitive_type_duration_example_fail_invalid_type,
  ExpErrors [(s_ "#/some_duration: Expected a string, but got: int")]);
((Tables [] [] []),
  schema_general_primitive_type_duration, value_general_primitive_type_duration_example_ok,
  ExpValue (JObj [((s_ "some_duration"), (JStr (s_ "P1DT1H1M1S")))]));
((Tables [] [] []),
  schema_general_primitive_type_duration, value_general_primitive_type_duration_example_ok_all_ones,
  ExpValue (JObj [((s_ "some_duration"), (JStr (s_ "P403DT17H19M19S")))]));
((Tables [] [] []),
  schema_general_primitive_type_duration, value_general_primitive_type_duration_example_ok_fractions,
  ExpValue (JObj [((s_ "some_duration"), (JStr (s_ "P444DT2H15M14.900000008S")))]));
((Tables [] [] []),
  schema_general_primitive_type_duration, value_general_primitive_type_duration_example_ok_many_years,
  ExpValue (JObj [((s_ "some_duration"), (JStr (s_ "P10957DT6H35M59.999999872S")))]));
((Tables [] [] []),
  schema_general_primitive_type_duration, value_general_primitive_type_duration_example_ok_negative_duration,
  ExpValue (JObj [((s_ "some_duration"), (JStr (s_ "-P1DT1H1M1S")))]));
((Tables [] [] []),
  schema_general_primitive_type_duration, value_general_primitive_type_duration_example_ok_zeros_after_comma,
  ExpValue (JObj [((s_ "some_duration"), (JStr (s_ "PT1S")))]));
((Tables [] [] []),
  schema_general_primitive_type_float, value_general_primitive_type_float_example_fail_invalid_type,
  ExpErrors [(s_ "#/some_float_gt_0_lt_100: Expected a double, but got: string")]);
((Tables [] [] []),
  schema_general_primitive_type_float, value_general_primitive_type_float_example_fail_out_of_ge_range,
  ExpErrors [(s_ "#/some_float_ge_0_le_100: Expected >= 0.000000, but got: -0.100000")]);
((Tables [] [] []),
  schema_general_primitive_type_float, value_general_primitive_type_float_example_fail_out_of_gt_range,
  ExpErrors [(s_ "#/some_float_gt_0_lt_100: Expected > 0.000000, but got: -0.000000")]);
((Tables [] [] []),
  schema_general_primitive_type_float, value_general_primitive_type_float_example_fail_out_of_le_range,
  ExpErrors [(s_ "#/some_float_ge_0_le_100: Expected <= 100.000000, but got: 100.100000")]);
((Tables [] [] []),
  schema_general_primitive_type_float, value_general_primitive_type_float_example_fail_out_of_lt_range,
  ExpErrors [(s_ "#/some_float_gt_0_lt_100: Expected < 100.000000, but got: 100.000000")]);
((Tables [] [] []),
  schema_general_primitive_type_float, value_general_primitive_type_float_example_ok,
  ExpValue (JObj [((s_ "some_float_ge_0_le_100"), (JFloat (S754_finite false 7036874417766400 (-46)%Z)));
  ((s_ "some_float_gt_0_lt_100"), (JFloat (S754_finite false 5953195757430374 (-47)%Z)));
  ((s_ "unconstrained_float"), (JFloat (S754_finite true 8727483496634778 (-42)%Z)))]));
((Tables [] [] []),
  schema_general_primitive_type_integer, value_general_primitive_type_integer_example_fail_invalid_type,
  ExpErrors [(s_ "#/some_int_gt_0_lt_100: Expected an int64, but got: string")]);
((Tables [] [] []),
  schema_general_primitive_type_integer, value_general_primitive_type_integer_example_fail_out_of_ge_range,
  ExpErrors [(s_ "#/some_int_ge_0_le_100: Expected >= 0, but got: -1")]);
((Tables [] [] []),
  schema_general_primitive_type_integer, value_general_primitive_type_integer_example_fail_out_of_gt_range,
  ExpErrors [(s_ "#/some_int_gt_0_lt_100: Expected > 0, but got: 0")]);
((Tables [] [] []),
  schema_general_primitive_type_integer, value_general_primitive_type_integer_example_fail_out_of_le_range,
  ExpErrors [(s_ "#/some_int_ge_0_le_100: Expected <= 100, but got: 101")]);
((Tables [] [] []),
  schema_general_primitive_type_integer, value_general_primitive_type_integer_example_fail_out_of_lt_range,
  ExpErrors [(s_ "#/some_int_gt_0_lt_100: Expected < 100, but got: 100")]);
((Tables [] [] []),
  schema_general_primitive_type_integer, value_general_primitive_type_integer_example_ok,
  ExpValue (JObj [((s_ "some_int_ge_0_le_100"), (JInt (100)%Z));
  ((s_ "some_int_gt_0_lt_100"), (JInt (42)%Z));
  ((s_ "unconstrained_int"), (JInt (-1984)%Z))]));
((Tables [] [] []),
  schema_general_primitive_type_path, value_general_primitive_type_path_example_fail_invalid_pattern,
  ExpErrors [(s_ "#/some_path: Expected to match ^/[a-zA-Z]+-[0-9]+$, but got: /!@# somefolder-123")]);
((Tables [] [] []),
  schema_general_primitive_type_path, value_general_primitive_type_path_example_fail_invalid_type,
  ExpErrors [(s_ "#/some_path: Expected a string, but got: int"); (s_ "#/unconstrained_path: Expected a string, but got: int")]);
((Tables [((s_ "^/[a-zA-Z]+-[0-9]+$"), (s_ "/somefolder-123"))] [] []),
  schema_general_primitive_type_path, value_general_primitive_type_path_example_ok,
  ExpValue (JObj [((s_ "some_path"), (JStr (s_ "/somefolder-123")));
  ((s_ "unconstrained_path"), (JStr [47; 33; 64; 35; 32; 115; 246; 109; 232; 32; 112; 228; 116; 104]%N))]));
((Tables [] [] []),
  schema_general_primitive_type_string, value_general_primitive_type_string_example_fail_invalid_pattern,
  ExpErrors [(s_ "#/some_str: Expected to match ^[a-zA-Z]*$, but got: some !@#$ string")]);
((Tables [] [] []),
  schema_general_primitive_type_string, value_general_primitive_type_string_example_fail_invalid_type,
  ExpErrors [(s_ "#/some_str: Expected a string, but got: int"); (s_ "#/unconstrained_str: Expected a string, but got: int")]);
((Tables [((s_ "^[a-zA-Z]*$"), (s_ "somestring"))] [] []),
  schema_general_primitive_type_string, value_general_primitive_type_string_example_ok,
  ExpValue (JObj [((s_ "some_str"), (JStr (s_ "somestring")));
  ((s_ "unconstrained_str"), (JStr [33; 64; 35; 36; 32; 115; 111; 109; 101; 32; 252; 110; 99; 246; 110; 115; 116; 114; 228; 105; 110; 233; 100; 32; 115; 116; 114; 110; 103]%N))]));
((Tables [] [] []),
  schema_general_primitive_type_time, value_general_primitive_type_time_example_fail_invalid_format,
  ExpErrors [(s_ "#/some_time: Expected to strptime %H-%M-%S, but got: 21/22/23"); (s_ "#/formatless_time: Expected to strptime %H:%M:%S, but got: 21/22/23")]);
((Tables [] [TimeRow (s_ "%H:%M:%S") (s_ "21:22:23") (Dt (1900)%Z (1)%Z (1)%Z (21)%Z (22)%Z (23)%Z (0)%Z None) (s_ "21:22:23")] []),
  schema_general_primitive_type_time, value_general_primitive_type_time_example_invalid_type,
  ExpErrors [(s_ "#/some_time: Expected a string, but got: int")]);
((Tables [] [TimeRow (s_ "%H-%M-%S") (s_ "21-22-23") (Dt (1900)%Z (1)%Z (1)%Z (21)%Z (22)%Z (23)%Z (0)%Z None) (s_ "21-22-23");
  TimeRow (s_ "%H:%M:%S") (s_ "21:22:23") (Dt (1900)%Z (1)%Z (1)%Z (21)%Z (22)%Z (23)%Z (0)%Z None) (s_ "21:22:23")] []),
  schema_general_primitive_type_time, value_general_primitive_type_time_example_ok,
  ExpValue (JObj [((s_ "formatless_time"), (JStr (s_ "21:22:23")));
  ((s_ "some_time"), (JStr (s_ "21-22-23")))]));
((Tables [] [] []),
  schema_general_primitive_type_time_zone, value_general_primitive_type_time_zone_example_ok,
  ExpValue (JObj [((s_ "some_time_zone"), (JStr (s_ "Europe/Zurich")))]))].
