{"claims": [
 {"property": "C01", "status": "proved", "theorems": ["C01_python_errors", "C01_go_errors", "C01_cpp_errors"], "note": "all three containers"},
 {"property": "C02", "status": "proved", "theorems": ["C02_python_graph_iff_no_errors"], "note": ""},
 {"property": "C03", "status": "partial", "theorems": ["C03_python_parse_sound_partial", "C03_python_parse_sound_exact_partial", "C03_python_parse_only_conforming", "C03_python_float_rounding_refuted", "C03_python_accepted_partial"], "note": "sound except that a float read from an integer is rounded after the bounds check (refuted); exact for integers below 2^53"},
 {"property": "C04", "status": "proved", "theorems": ["C04_python_parse_complete", "C04_python_accepted"], "note": "schemas with distinct attribute and registry names"},
 {"property": "C05", "status": "proved", "theorems": ["C05_python_reference_integrity"], "note": "schemas with distinct attribute and registry names"},
 {"property": "C06", "status": "proved", "theorems": ["C06_python_capacity_only_truncates"], "note": ""},
 {"property": "C07", "status": "proved", "theorems": ["C07_python_unknown_members_ignored", "C07_python_unknown_member_of_graph"], "note": "at any depth"},
 {"property": "C08", "status": "partial", "theorems": ["C08_python_parser_total_partial", "C08_python_messages_without_braces", "C08_python_null_registry_refuted", "C08_python_float_overflow_refuted", "C08_python_pattern_braces_refuted", "C08_python_accepted_partial"], "note": "the generated code raises on null registries, huge integers for floats and patterns with braces; total otherwise"},
 {"property": "C09", "status": "partial", "theorems": ["C09_python_round_trip_partial", "C09_python_upper_names_refuted", "C09_python_accepted_partial"], "note": "for lower-case property names and values whose texts round-trip"},
 {"property": "C10", "status": "partial", "theorems": ["C10_python_serialize_partial", "C10_python_raises_iff_inconsistent_partial", "C09_python_upper_names_refuted"], "note": "for lower-case property names; otherwise AttributeError"},
 {"property": "C11", "status": "partial", "theorems": ["C11_python_duration_round_trip", "C11_python_duration_iso_partial", "C11_python_zero_duration_refuted"], "note": "The round trip is proved for every timedelta (IEEE binary64 arithmetic included). The text is an ISO 8601 duration for every value except zero, which is written as P (refuted)."},
 {"property": "C12", "status": "partial", "theorems": ["C12_go_duration_round_trip_partial", "C12_go_min_duration_refuted"], "note": "Proved for every int64 except MinInt64, which is written as -P and read back as 0 (refuted)."},
 {"property": "C13", "status": "partial", "theorems": ["C13_cpp_duration_round_trip_partial", "C13_cpp_uninitialized_flag_refuted"], "note": "Proved for every int64 provided that the uninitialized flag overflows starts as false; with true nothing is accepted (refuted)."},
 {"property": "C14", "status": "partial", "theorems": ["C14_go_accepts_exactly", "C14_cpp_accepts_exactly", "C14_go_exact_partial", "C14_cpp_exact_partial", "C14_python_exact_partial", "C14_python_accepts_only_partial", "C14_grammar_unambiguous", "C14_python_newline_refuted", "C14_cpp_throws_refuted", "C14_go_accuracy", "C14_go_accepts_in_range", "C14_go_rejects_out_of_range", "C14_cpp_accuracy", "C14_cpp_accepts_in_range", "C14_cpp_rejects_out_of_range", "C14_go_cpp_agree", "C14_python_accuracy", "C14_python_accepts_in_range", "C14_python_rejects_out_of_range"], "note": "Go and C++: exact characterisation of the accepted texts and of the result (no wrap-around), in terms of binary64 products; exact decimal meaning for texts without years, months and fractions of larger parts (all three languages). For every text: the result differs from the exact rational value by at most a relative error of 2^-50 plus 7 ns (Go, C++) or 0.501 us (Python); texts in range up to a small margin are accepted, texts out of range by that margin are rejected. C++ acceptance assumes at most 300 decimal places, since std::stod throws on underflow. Partial because of the refuted parts: Python accepts a trailing newline, C++ throws on large seconds."},
 {"property": "C15", "status": "partial", "theorems": ["C15_go_single_error_never_panics_partial", "C15_go_flat_never_panics_partial", "C15_go_only_nonempty_panics_partial", "C15_go_second_error_panics_refuted", "C15_go_error_before_embed_panics_refuted"], "note": "never panics with capacity 1 or without classes and embeds; with other capacities the only panic is the check for a non-empty container, which is reachable (refuted)"},
 {"property": "C16", "status": "partial", "theorems": ["C16_go_parse_sound_partial", "C16_go_accepts_conforming_partial", "C16_go_order_irrelevant_partial", "C16_go_null_rejected_refuted", "C16_go_rounded_bound_refuted", "C16_go_accepted_partial"], "note": "exact for values without explicit nulls and float bounds representable as float64; both exceptions are refuted"},
 {"property": "C17", "status": "partial", "theorems": ["C17_go_round_trip_partial", "C17_go_large_integer_refuted", "C17_go_direct_integer_refuted", "C17_go_accepted_partial"], "note": "round trip through JSON text for representable integers, finite floats and durations other than the minimum"},
 {"property": "C18", "status": "partial", "theorems": ["C18_cpp_parse_sound_partial", "C18_cpp_accepts_conforming_partial", "C18_cpp_order_irrelevant_partial", "C18_cpp_throws_only_duration_partial", "C18_cpp_errors_bounded", "C18_cpp_no_capacity_refuted", "C18_cpp_no_capacity_throws_refuted", "C18_cpp_null_rejected_refuted", "C18_cpp_rounded_bound_refuted", "C18_cpp_trailing_text_refuted", "C18_cpp_text_after_nul_refuted", "C18_cpp_duration_throws_refuted", "C18_cpp_uninitialized_flag_refuted", "C18_cpp_accepted_partial"], "note": "Proved for schemas with lower-case distinct field names and bounds exactly representable as double, a container with capacity > 0 and (acceptance) values without explicit nulls. False otherwise: capacity 0 accepts everything or throws, null for an optional property is rejected, bounds are rounded, date.h ignores trailing text and ctime text after a NUL, stol/stod exceptions escape, an uninitialized flag may reject all durations."},
 {"property": "C19", "status": "partial", "theorems": ["C19_cpp_round_trip_partial", "C19_cpp_unset_optionals_refuted", "C19_cpp_unset_graph_refuted", "C19_cpp_accepted_partial", "C19_cpp_hidden_registry_refuted"], "note": "Proved for graphs whose instances, embedded structures and the graph itself have some property set, whose dates and times are reproduced by the library and fit into the buffer, and if the uninitialized flag of duration_from_string is false. Refuted when all optional properties are unset: null is written and rejected. No registry may have the name of the graph (in lower case): its variable hides the one of the result, and the instances are lost without an error (C19_cpp_hidden_registry_refuted, for an accepted schema)."},
 {"property": "C20", "status": "partial", "theorems": ["C20_python_to_go_partial", "C20_python_to_cpp_partial", "C20_go_to_python_partial", "C20_go_to_cpp_partial", "C20_cpp_to_python_partial", "C20_cpp_to_go_partial", "C20_python_written_partial", "C20_go_written_partial", "C20_cpp_written_partial", "C20_accepted_schemas_ready", "C20_free_texts_agree", "C20_durations_of_python", "C20_long_durations_of_python", "C20_durations_of_go_and_cpp", "C20_nanoseconds_refuted", "C20_true_for_one_refuted", "C20_long_integer_refuted", "C20_rounded_integer_refuted", "C20_null_refuted", "C20_patterns_refuted"], "note": "Proved for all six pairs of languages, both for documents accepted by the sender and for graphs written by it: the receiver accepts the document, whatever the iteration order, without errors, and both graphs are the same up to the addresses of the instances. Hypotheses: the schema is accepted for all three languages and its bounds are exact (C20_accepted_schemas_ready), no null for Go and C++, no registry named as the graph for what C++ writes, integers of the sender fit the receiver, and every text of the document which the sender's libraries accept is accepted by the receiver's (regular expressions, dates, time zones; shown for durations and unconstrained texts). Refuted without them: null and true from Python, integers beyond 53 and 64 bits, nanoseconds for Python, patterns."},
 {"property": "C21", "status": "partial", "theorems": ["C21_cpp_time_text_partial", "C21_cpp_long_text_refuted"], "note": "Exact characterization: returns the expansion iff the format is empty, or the expansion is not empty and shorter than four times the format; otherwise the loop doubles the buffer until memory is exhausted and throws. Refuted for %B in September."},
 {"property": "C22", "status": "partial", "theorems": ["C22_property_conversions_partial", "C22_class_conversions_partial", "C22_double_underscore_refuted", "C22_trailing_newline_refuted", "C22_graph_name_refuted"], "note": "conversions proved for names without empty parts; the code raises on the refuted names"},
 {"property": "C23", "status": "partial", "theorems": ["C23_plural_keeps_name_partial", "C23_plural_suffix_partial", "C23_registry_key_partial", "C23_irregular_plural_refuted", "C23_plural_collision_refuted"], "note": "regular plurals; irregular last parts lose the prefix"},
 {"property": "C24", "status": "partial", "theorems": ["C24_json_keys_distinct_partial", "C24_properties_refuted", "C24_registry_refuted", "C24_registries_refuted"], "note": "Proved for documents whose properties state no JSON name. Refuted in general: two properties may state the same JSON name, a property of the graph may state the JSON key of a registry, and two classes may state the same plural."},
 {"property": "C25", "status": "proved", "theorems": ["C25_tokenize_accepts", "C25_tokenize_lossless", "C25_tokenize_exceptions"], "note": ""},
 {"property": "C26", "status": "proved", "theorems": ["C26_date_format", "C26_time_format", "C26_datetime_format"], "note": ""},
 {"property": "C27", "status": "partial", "theorems": ["C27_go_layout_faithful_partial", "C27_weekday_refuted", "C27_literal_digit_refuted", "C27_literal_monday_refuted", "C27_boundary_refuted", "C27_linebreak_refuted"], "note": "faithful for formats without the refuted features"},
 {"property": "C28", "status": "proved", "theorems": ["C28_needs_type", "C28_schema"], "note": ""},
 {"property": "C29", "status": "proved", "theorems": ["C29_references", "C29_references_nested"], "note": ""},
 {"property": "C30", "status": "proved", "theorems": ["C30_patterns_unique_complete"], "note": "Any schema graph; patterns are identified by their text."},
 {"property": "C31", "status": "proved", "theorems": ["C31_iterate_exact", "C31_iterate_once", "C31_parsed_once"], "note": "Exactly the value types with their references; in every graph returned by the schema parser no definition twice."},
 {"property": "C32", "status": "partial", "theorems": ["C32_only_schema_errors_partial", "C32_refuted"], "note": "For every JSON document and every regular-expression engine, a schema or SchemaError, unless the document is of one of the exceptional kinds: an array or a map whose values lack a type or have a non-text one, a property typed by the graph, a non-finite number, a class whose derived plural does not start with a capital letter. C32_refuted gives a document and the escaping exception for each kind."},
 {"property": "C33", "status": "partial", "theorems": ["C33_accepted_documents", "C33_accepted_schemas", "C33_ranges_satisfiable_partial", "C33_range_refuted", "C33_nan_refuted", "C33_name_refuted"], "note": "Acceptance implies the declarative rules (S_Validate.document), unique composite names and resolved types in the parsed schema. Ranges are satisfiable except an exclusive integer range a..a+1 and NaN bounds (refuted with accepted documents); a property name may end with a line break (refuted)."},
 {"property": "C34", "status": "partial", "theorems": ["C34_accepts_partial", "C34_refuted"], "note": "Every document following the rules is accepted if the derived plurals start with a capital letter, and parsed if moreover no property has the graph as its type and the numbers are finite. Refuted for the class Some_matrix, whose derived plural makes the validation raise."},
 {"property": "C35", "status": "partial", "theorems": ["C35_described", "C35_described_exactly_partial", "C35_refuted"], "note": "For every accepted document the schema is the described one with numeric bounds rounded toward zero; exactly the described one if all numbers are integral. Refuted for the minimum 0.5."},
 {"property": "C36", "status": "partial", "theorems": ["C36_no_errors_partial", "C36_no_clash_partial", "C36_errors_real", "C36_returns_partial", "C36_graph_refuted", "C36_keyword_refuted", "C36_raises_refuted", "C36_names_not_confused"], "note": "No reported error iff there is no clash between generated identifiers, and every reported error is a clash between the parts at its references. Missing, and refuted with accepted documents: a class or an embed may have the identifier of the graph, async and await are not treated as keywords, and names with two underscores in a row raise IndexError."},
 {"property": "C37", "status": "partial", "theorems": ["C37_no_errors_partial", "C37_no_clash_partial", "C37_errors_real", "C37_returns_partial", "C37_graph_refuted", "C37_reserved_refuted", "C37_raises_refuted", "C37_names_not_confused"], "note": "As C36, with the date and time formats: no reported error iff no clash and no part of a Go layout in the text of a format. Missing, and refuted with accepted documents: a class or an embed may have the identifier of the graph or a name which the generated code declares, and names with two underscores in a row raise IndexError."},
 {"property": "C38", "status": "partial", "theorems": ["C38_no_errors_partial", "C38_no_clash_partial", "C38_errors_real", "C38_returns_partial", "C38_declared", "C38_graph_refuted", "C38_raises_refuted", "C38_names_not_confused"], "note": "As C36; in addition the names of the properties, which the declarations use as they are, are distinct and no keywords. Missing, and refuted with accepted documents: a class or an embed may have the identifier of the graph, and names with two underscores in a row raise IndexError."},
 {"property": "C39", "status": "partial", "theorems": ["C39_go_literal_partial", "C39_go_literal_refuted", "C39_cpp_literal_partial", "C39_cpp_literal_refuted"], "note": "Exact characterization: the literal denotes the text unless it contains NUL, ESC (written as \\e, which Go and standard C++ do not have) or, in Go, a byte order mark. The full claim is refuted for ESC."},
 {"property": "C40", "status": "partial", "theorems": ["C40_ticked_partial", "C40_ticked_refuted", "C40_reindented_refuted"], "note": "The expression denotes the text exactly if it has no carriage return (Go drops them in raw literals); NUL and byte order mark excluded. The later re-indention of the source changes literals of several lines."},
 {"property": "C41", "status": "partial", "theorems": ["C41_comment_lines", "C41_comment_python", "C41_comment_go", "C41_comment_cpp_partial", "C41_comment_cpp_refuted"], "note": "Python and Go in full. C++ if the last line does not end with a backslash; otherwise the next line of code is swallowed (refuted)."},
 {"property": "C42", "status": "partial", "theorems": ["C42_docstring_partial", "C42_docstring_refuted"], "note": "For texts without NUL and carriage return whose single line does not end with a quote or a backslash; refuted for those."},
 {"property": "C43", "status": "proved", "theorems": ["C43_contents_kept", "C43_indention"], "note": "Levels are non-negative in C43_indention; C43_contents_kept needs an indention made of blanks and tabs, which the schema enforces."},
 {"property": "C44", "status": "proved", "theorems": ["C44_python", "C44_go", "C44_cpp", "C44_cpp_parameter_refuted"], "note": "All numbered variables declared in a generated parsing or serializing function are distinct, in all three languages. Beyond the statement: the parameter of a C++ serializer, named after the class, can clash with a numbered variable (class Target_0)."},
 {"property": "C45", "status": "proved", "theorems": ["C45_order_by_optional"], "note": ""},
 {"property": "C46", "status": "partial", "theorems": ["C46_success", "C46_complete", "C46_failure_partial", "C46_rejected_unchanged", "C46_raised_partial", "C46_outdir_made_refuted", "C46_half_written_refuted"], "note": "Success characterised both ways. Refuted: on failure of the language validation or missing settings the output directory has been made already; a file which cannot be written leaves the earlier ones written. The partial theorems state exactly what can differ. Permissions, links and full disks are not modelled; the texts of the generated files are a parameter."},
 {"property": "C47", "status": "partial", "theorems": ["C47_cursor_partial", "C47_long_line", "C47_end_refuted", "C47_separator_refuted"], "note": "Proved for texts without separators other than line feeds and carriage returns, lines of at most 120 characters, positions not behind a final line feed. Refuted: IndexError for an error at the end of an empty text or behind a final line feed; a wrong line is shown after e.g. U+2028. json.load is a parameter which yields the error position."},
 {"property": "C48", "status": "partial", "theorems": ["C48_types", "C48_to_jsonable", "C48_tests", "C48_from_jsonable_partial", "C48_from_jsonable_sufficient", "C48_from_jsonable_refuted"], "note": "Proved for types.go, to_jsonable.go, parse.go and the tests for all accepted documents; for from_jsonable.go if there is a class or a property. Without both, strings is imported and not used (refuted with a witness which passes the validations)."},
 {"property": "C49", "status": "partial", "theorems": ["C49_declared", "C49_defined_partial", "C49_order_refuted"], "note": "Every structure is declared before it is mentioned. The structures are completely defined before others contain them if and only if the schema lists the embeddable structures in such an order; mapry does not establish the order, a schema which passes the validations refutes the property."},
 {"property": "C50", "status": "proved", "theorems": ["C50_go_integer_exact"], "note": ""},
 {"property": "C51", "status": "partial", "theorems": ["C51_python_errors_true", "C51_python_errors_complete", "C51_go_errors_true", "C51_go_errors_complete", "C51_cpp_errors_true", "C51_cpp_errors_complete", "C51_go_reference_ambiguous_refuted", "C51_cpp_reference_ambiguous_refuted", "C51_references_unambiguous_partial"], "note": "Errors are sound and complete in all three languages whenever the parser returns (Go panics after errors in some documents, C15; C++ throws for huge durations, C18). Refuted part: in Go and C++ the keys of maps are not quoted in references, so that two places of a document can have the same reference."},
 {"property": "C52", "status": "partial", "theorems": ["C52_python_pattern_partial", "C52_python_pattern_refuted", "C52_cpp_pattern_partial", "C52_cpp_pattern_refuted"], "note": "Python: patterns without single quotes, line breaks and NUL, ending with an even number of backslashes; refuted for a quote. C++: exact, refuted for the closing sequence of the raw literal."},
 {"property": "C53", "status": "partial", "theorems": ["C53_finite_partial", "C53_endless_refuted"], "note": "Go accepts the structures if and only if no embeddable structure requires itself through required properties; a schema which passes the validations refutes the property."},
 {"property": "C54", "status": "partial", "theorems": ["C54_importable_partial", "C54_self_refuted"], "note": "Proved for all accepted documents which pass the validation for Python and have no property or plural called self; with such a property the module is not accepted by Python (refuted with a witness)."},
 {"property": "C55", "status": "partial", "theorems": ["C55_class_partial", "C55_embed_partial", "C55_graph_partial", "C55_collections_refuted"], "note": "Proved for all classes, embeddable structures and graphs whose identifiers are distinct, without an attribute self; for graphs with classes, without an attribute collections: the graph cannot be created without its registries otherwise (refuted with a witness)."},
 {"property": "C56", "status": "partial", "theorems": ["C56_types_header_partial", "C56_jsoncpp_header", "C56_implementation_partial", "C56_map_refuted", "C56_duration_refuted"], "note": "Proved but for two cases which are refuted: std::string as the key of maps in a header without other strings, and std::atol for durations (<cstdlib> is not included). No superfluous include is shown for the header with the types only. Which header declares an entity is a table in S_Imports."},
 {"property": "C57", "status": "proved", "theorems": ["C57_from_jsonable", "C57_to_jsonable", "C57_parse"], "note": "For all accepted documents with settings for Python."},
 {"property": "C58", "status": "partial", "theorems": ["C58_python_partial", "C58_python_case_refuted", "C58_python_package_refuted", "C58_python_registry_refuted", "C58_python_serializer_refuted", "C58_go_partial", "C58_go_case_refuted", "C58_go_registry_refuted", "C58_cpp_partial", "C58_cpp_keyword_refuted", "C58_cpp_library_refuted", "C58_cpp_case_refuted", "C58_cpp_registry_refuted", "C58_cpp_result_refuted", "C58_cpp_namespace_refuted"], "note": "Python: proved for all accepted documents if the names of the structures differ in lower case, the package is not called like a generated name, and two pairs of names differ; refuted by accepted documents otherwise. Go: proved for all accepted documents if the identifier of the graph and those of the plurals differ and no identifier is that of a generated function; refuted by accepted documents otherwise. C++: proved for all accepted documents if the names of the structures are no keywords in lower case, the parameters and variables of the serializers differ from the functions and from each other, the namespaces of the patterns differ and the namespace of the code hides nothing; refuted by accepted documents otherwise."},
 {"property": "C59", "status": "partial", "theorems": ["C59_parsers", "C59_serializers_partial", "C59_empty_graph_refuted", "C59_empty_format_refuted"], "note": "The parsers use all their variables exactly if the graph has a class or a property (C59_parsers is an equivalence); the serializers if the formats are not empty and break lines with line feeds only. Accepted documents refute both otherwise: a graph with neither classes nor properties, and an array of datetimes with an empty format."},
 {"property": "C60", "status": "partial", "theorems": ["C60_go_partial", "C60_go_overflow_refuted"], "note": "Proved for documents which pass the validations, whose names are apart (C58) and whose numerical bounds fit int64 and float64; refuted otherwise: an integer with the minimum 10^20 is accepted, but the constant overflows int64 and the package does not compile. Unused variables are C59, undeclared names C58."},
 {"property": "C61", "status": "partial", "theorems": ["C61_go_partial", "C61_go_percent_refuted"], "note": "Proved, together with the types of C60, if neither the patterns nor the layouts contain a percent sign; refuted otherwise: the pattern ^%d$ gives a format with two verbs and one argument, so the message is garbled and go vet rejects the package."},
 {"property": "C62", "status": "partial", "theorems": ["C62_cpp_partial", "C62_cpp_names", "C62_cpp_optional_date_refuted", "C62_cpp_capital_refuted", "C62_cpp_literal_refuted"], "note": "Proved for all documents which pass the validations, whose graph is not called like a structure and no structure Json::Value (names in general are C58), whose property names are in lower case and whose numbers are literals of C++, without optional dates if date.h is used. Refuted without the last three: an optional date with date.h, a property with a capital letter and a bound beyond 64 bits pass the validations but do not compile."},
 {"property": "C63", "status": "partial", "theorems": ["C63_errors_partial", "C63_shape_reported", "C63_faults_reported", "C63_references_unambiguous", "C63_plural_reference_refuted", "C63_values_reference_refuted"], "note": "Every error names a real fault at a place of the document and its reference leads there, except for two kinds of errors: a property called like a registry is referred to as a member of the graph (C63_plural_reference_refuted), and a missing definition of values gets a slash at the end (C63_values_reference_refuted). All faults are reported as stated. jsonschema raises one of its errors: the model keeps the set of the places it may blame."},
 {"property": "C64", "status": "partial", "theorems": ["C64_cpp_members", "C64_cpp_initializers", "C64_cpp_partial", "C64_duration_refuted"], "note": "Refuted for required durations (std::chrono::nanoseconds has a defaulted constructor and _default_value gives no initializer); proved: a variable has an indeterminate part if and only if there is a required duration (or a required time with date.h, if the version of date.h does not set it) in the structure or in a required structure within it."},
 {"property": "C65", "status": "partial", "theorems": ["C65_cpp_declared", "C65_cpp_partial", "C65_cpp_graph_refuted"], "note": "Proved for all accepted schemas whose graph is not called like another structure; C65_cpp_declared (header and source have the same functions) without that condition. Refuted where the graph and a class have the same name in C++: the validation does not compare them."},
 {"property": "C66", "status": "partial", "theorems": ["C66_go_serializer", "C66_go_accepted_partial"], "note": "The run of the generated serializers is proved to agree with the model for all graphs and memories; the round trip needs the hypotheses of C17 (bounds exact as floats, names apart, plurals different in lower case)."},
 {"property": "C67", "status": "partial", "theorems": ["C67_go_parser_partial", "C67_go_accepted_partial", "C67_go_checks_partial", "C67_go_round_trip_partial", "C67_go_panics_refuted"], "note": "The run of the generated parsers is proved to agree with the model for all JSON values and memories; maps are visited in the order in which they are stored, the target has its zero value, no embeddable structure requires itself (C53), and the checks and the round trip need the hypotheses of C16, C17 and C66. That every value is reported without a panic is refuted (C15)."}
]}
