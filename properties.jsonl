{"id": "C01", "title": "Error containers are capped logs", "statement": "The `Errors` container that mapry generates for Python, Go and C++ stores exactly the first `cap` errors that were added, in order of addition, never more than `cap`; it reports full exactly when it holds `cap` errors and empty exactly when it holds none (in Go a capacity of 0 means unbounded).", "quantifier": "every capacity and every finite sequence of add calls", "why_tests_cant": "the number and contents of additions is unbounded; tests try a few fixed sequences", "anchors": ["mapry/py/generate/parse.py: Errors template", "mapry/go/generate/parse.py: _DEFINE_ERROR_AND_ERRORS", "mapry/cpp/generate/parse_impl.py: _parse_errors"]}
{"id": "C02", "title": "Python parsing yields a graph exactly when there are no errors", "statement": "Calling the generated Python `<graph>_from(value, ref, errors)` with a fresh error container of positive capacity returns a graph object if and only if no error was recorded; when it returns None at least one error is recorded.", "quantifier": "every schema, every JSON value, every reference prefix, every positive capacity", "why_tests_cant": "holds for all combinations of schema and (in)valid input", "anchors": ["mapry/py/generate/fromjsonable.py: _PARSE_GRAPH_TPL, _parse_property, _parse_value"]}
{"id": "C03", "title": "Python parsing is sound", "statement": "If the generated Python parser returns a graph, then every property of the graph, of every instance and of every embedded structure satisfies the schema: required properties are set, numbers respect the inclusive/exclusive bounds, strings match their patterns, array sizes respect the limits, instance IDs match the ID pattern.", "quantifier": "every schema and every JSON value accepted by the parser", "why_tests_cant": "constraint combinations times input shapes are unbounded (nested arrays, maps, embeds)", "anchors": ["mapry/py/generate/fromjsonable.py: _parse_integer, _parse_float, _parse_string, _parse_path, _parse_array, _parse_map, _parse_property, _parse_composite, _parse_graph"]}
{"id": "C04", "title": "Python parsing is complete", "statement": "Every JSON value that conforms to the schema (has all required properties with conforming values and all references resolvable) is accepted by the generated Python parser without errors.", "quantifier": "every schema and every conforming JSON value", "why_tests_cant": "an over-strict branch may be hit only by unusual nesting or boundary values", "anchors": ["mapry/py/generate/fromjsonable.py"]}
{"id": "C05", "title": "Reference integrity of parsed graphs", "statement": "In a graph returned by the generated parser every reference to a class instance, at any nesting depth inside arrays, maps and embedded structures, designates an instance that is registered under that ID in the registry of the right class, and every registered instance carries the ID it is registered under.", "quantifier": "every schema with arbitrarily cyclic class references and every JSON value", "why_tests_cant": "references may be cyclic, forward, nested arbitrarily deep", "anchors": ["mapry/py/generate/fromjsonable.py: _parse_instance_reference, _PARSE_GRAPH_TPL", "mapry/__init__.py: references"]}
{"id": "C06", "title": "Lower capacity only truncates the error report", "statement": "Parsing the same value with a smaller positive error capacity reports a prefix of the errors reported with a larger capacity: stopping early never changes, reorders or invents errors.", "quantifier": "every schema, value and pair of capacities", "why_tests_cant": "quantifies over pairs of runs with different early-exit points", "anchors": ["mapry/py/generate/fromjsonable.py: errors.full() exits", "mapry/py/generate/parse.py"]}
{"id": "C07", "title": "Unknown JSON properties are ignored", "statement": "Adding object members whose keys are neither a property key nor a registry key of the corresponding composite does not change the outcome of parsing (neither the graph nor the errors).", "quantifier": "every schema, every value and every set of additional members", "why_tests_cant": "the set of additional members is unbounded", "anchors": ["mapry/py/generate/fromjsonable.py: _parse_property, _PARSE_GRAPH_TPL"]}
{"id": "C08", "title": "The Python parser never raises on JSON input", "statement": "For every value obtained from JSON the generated Python parser terminates by returning; all problems in the input are reported through the error container and no exception escapes.", "quantifier": "every schema and every JSON value", "why_tests_cant": "needs all inputs, including unusual ones such as null registries", "anchors": ["mapry/py/generate/fromjsonable.py: _PARSE_GRAPH_TPL (registry parsing)", "mapry/py/generate/fromjsonable.py: _duration_from_string"]}
{"id": "C09", "title": "Python round trip", "statement": "Serializing any consistent Python object graph with the generated `serialize_<graph>` and parsing the result with `<graph>_from` returns an equal object graph and records no errors.", "quantifier": "every schema with distinct JSON keys and every graph object conforming to it", "why_tests_cant": "codec round trips quantify over all values", "anchors": ["mapry/py/generate/tojsonable.py", "mapry/py/generate/fromjsonable.py"]}
{"id": "C10", "title": "Python serialization rejects inconsistent registries", "statement": "The generated Python graph serializer raises ValueError if and only if some instance is registered under an ID different from its own ID; otherwise every non-empty registry and every set property appears in the output, and absent optional properties and empty registries do not.", "quantifier": "every schema and every object graph", "why_tests_cant": "registries are unbounded", "anchors": ["mapry/py/generate/tojsonable.py: _SERIALIZE_GRAPH_TPL, _serialize_property"]}
{"id": "C11", "title": "Python durations survive the textual form", "statement": "For every datetime.timedelta the generated serializer produces an ISO 8601 duration string which the generated parser accepts and maps back to the very same timedelta.", "quantifier": "every timedelta from timedelta.min to timedelta.max in microsecond steps", "why_tests_cant": "about 1.7e20 values", "anchors": ["mapry/py/generate/tojsonable.py: _duration_to_string", "mapry/py/generate/fromjsonable.py: _duration_from_string"]}
{"id": "C12", "title": "Go durations survive the textual form", "statement": "For every time.Duration the generated Go serializer produces a string which the generated Go parser accepts and maps back to the same duration, in spite of the intermediate float64 arithmetic.", "quantifier": "every int64 number of nanoseconds", "why_tests_cant": "2^64 values and floating-point rounding", "anchors": ["mapry/go/generate/tojsonable.py: _duration_to_string", "mapry/go/generate/fromjsonable.py: _duration_from_string"]}
{"id": "C13", "title": "C++ durations survive the textual form", "statement": "For every std::chrono::nanoseconds value the generated C++ serializer either throws (only for the minimum value) or produces a string which the generated C++ parser accepts and maps back to the same duration.", "quantifier": "every int64 number of nanoseconds", "why_tests_cant": "2^64 values, floating-point rounding and an overflow flag shared between additions", "anchors": ["mapry/cpp/generate/jsoncpp_impl.py: _duration_to_string, _duration_from_string"]}
{"id": "C14", "title": "Duration parsers reject malformed and overflowing durations", "statement": "The generated duration parsers accept exactly the strings of the documented ISO 8601 grammar (sign, P, Y/M/W/D parts, T, H/M/S parts) whose value fits the target type, and never return a wrapped-around value.", "quantifier": "every string", "why_tests_cant": "all strings", "anchors": ["mapry/py/generate/fromjsonable.py: _duration_from_string", "mapry/go/generate/fromjsonable.py: _duration_from_string, addDuration", "mapry/cpp/generate/jsoncpp_impl.py: _duration_from_string"]}
{"id": "C15", "title": "The Go parser never panics on JSON input", "statement": "For every JSON value and a fresh error container the generated Go `<Graph>FromJSONable` returns normally; all problems in the input are reported through the error container.", "quantifier": "every schema, every JSON value, every capacity, every map iteration order", "why_tests_cant": "needs all inputs and all iteration orders of Go maps", "anchors": ["mapry/go/generate/fromjsonable.py: _PARSE_COMPOSITE_TPL, _PARSE_GRAPH_TPL"]}
{"id": "C16", "title": "Go parsing accepts exactly the conforming values", "statement": "If the generated Go parser records no error then the parsed target satisfies the schema and all references are resolved; conversely every conforming JSON value is accepted without an error.", "quantifier": "every schema, every JSON value, every map iteration order", "why_tests_cant": "unbounded inputs and nondeterministic iteration order", "anchors": ["mapry/go/generate/fromjsonable.py"]}
{"id": "C17", "title": "Go round trip", "statement": "Serializing a consistent Go object graph with `<Graph>ToJSONable` and parsing the result with `<Graph>FromJSONable` reproduces the graph without errors.", "quantifier": "every schema and every object graph", "why_tests_cant": "codec round trips quantify over all values", "anchors": ["mapry/go/generate/tojsonable.py", "mapry/go/generate/fromjsonable.py"]}
{"id": "C18", "title": "C++ parsing accepts exactly the conforming values", "statement": "If the generated C++ parser records no error then the parsed target satisfies the schema and all references are resolved; conversely every conforming JSON value is accepted without an error.", "quantifier": "every schema and every Json::Value", "why_tests_cant": "unbounded inputs", "anchors": ["mapry/cpp/generate/jsoncpp_impl.py: _parse_graph, _parse_composite, _parse_value"]}
{"id": "C19", "title": "C++ round trip", "statement": "Serializing a consistent C++ object graph with `serialize_<graph>` and parsing the result with `<graph>_from` reproduces the graph without errors.", "quantifier": "every schema and every object graph", "why_tests_cant": "codec round trips quantify over all values (e.g. composites all of whose optional properties are unset)", "anchors": ["mapry/cpp/generate/jsoncpp_impl.py: _serialize_class_or_embed, _serialize_graph, _parse_composite"]}
{"id": "C20", "title": "Interoperability of the generated parsers", "statement": "A JSON value serialized by the generated code of one language is accepted by the generated parser of the other languages and denotes the same object graph.", "quantifier": "every schema accepted for all three languages and every object graph", "why_tests_cant": "needs all values and three implementations of each constraint (e.g. pattern matching is anchored differently)", "anchors": ["mapry/py/generate/fromjsonable.py", "mapry/go/generate/fromjsonable.py", "mapry/cpp/generate/jsoncpp_impl.py"]}
{"id": "C21", "title": "C++ date/time serialization terminates", "statement": "The generated C++ function that formats a `struct tm` terminates for every supported format and returns the strftime expansion of the format.", "quantifier": "every format and every time structure", "why_tests_cant": "a retry loop: termination for all inputs", "anchors": ["mapry/cpp/generate/jsoncpp_impl.py: _datetime_to_string"]}
{"id": "C22", "title": "Identifier conversion is total on accepted names", "statement": "For every name accepted by schema validation the identifier conversions used by the generators (camel case, upper camel case, variable, attribute, composite, plural, JSON plural) succeed and yield a syntactically valid identifier.", "quantifier": "every name matching the schema's name patterns", "why_tests_cant": "all names, e.g. doubled underscores or irregular plurals", "anchors": ["mapry/naming.py", "mapry/py/naming.py", "mapry/cpp/naming.py", "mapry/validation.py: _PROPERTY_RE", "mapry/schemas.py"]}
{"id": "C23", "title": "Plural forms keep names apart from registries", "statement": "The plural inferred for a class keeps the whole qualified name (only the ending is changed), so the inferred registry name starts with the class's own name prefix, and it can be used as registry key.", "quantifier": "every class name accepted by schema validation", "why_tests_cant": "all names", "anchors": ["mapry/naming.py: plural, json_plural"]}
{"id": "C24", "title": "No two pieces of data share a JSON key", "statement": "In a validated schema the JSON keys of the properties of one composite are pairwise distinct and differ from the JSON keys of the class registries of the graph, so serialization never overwrites one piece of data with another.", "quantifier": "every schema accepted by validation", "why_tests_cant": "all schemas, including explicit `json` names", "anchors": ["mapry/validation.py: _validate_plurals, _validate_properties", "mapry/py/generate/tojsonable.py"]}
{"id": "C25", "title": "Format tokenization is lossless and exact", "statement": "Tokenizing a date/time format succeeds exactly when every percent sign starts a supported directive; the tokens then spell out the format again line by line, and no text token contains a percent sign.", "quantifier": "every string", "why_tests_cant": "all strings", "anchors": ["mapry/strftime.py: tokenize"]}
{"id": "C26", "title": "Date and time formats contain only fitting directives", "statement": "A date (time) format is accepted by validation exactly when it is tokenizable, non-empty and contains only date (time) directives; a date-time format exactly when it is tokenizable.", "quantifier": "every string", "why_tests_cant": "all strings", "anchors": ["mapry/strftime.py: validate_date_tokens, validate_time_tokens", "mapry/validation.py: _validate_date, _validate_time, _validate_datetime"]}
{"id": "C27", "title": "Conversion of formats to Go preserves their meaning", "statement": "For every format accepted by the Go schema validation, the Go layout produced from it denotes the same sequence of date/time fields and literal text as the strftime format.", "quantifier": "every accepted format and every point in time", "why_tests_cant": "literal text may be (mis)read as a Go reference-time field, across token boundaries", "anchors": ["mapry/go/timeformat.py: convert", "mapry/go/validation.py: _validate_date_time_formats"]}
{"id": "C28", "title": "Type queries terminate and are exact on cyclic schemas", "statement": "`needs_type(graph, query)` terminates for every schema, including cyclic class references, and answers True exactly when a type of the queried kind is reachable from the graph through classes, embeds, properties, arrays and maps.", "quantifier": "every (possibly cyclic) type graph and every query", "why_tests_cant": "cyclic structures of any size", "anchors": ["mapry/__init__.py: _needs_type, needs_type"]}
{"id": "C29", "title": "The reported class references are exact and consistent", "statement": "`references(composite)` terminates and lists, sorted by name and without duplicates, exactly the classes reachable from the properties of the composite; a composite's references include those of every embedded structure it (transitively) contains, so generated calls always find the registries they pass on, in the order expected by the callee.", "quantifier": "every (possibly cyclic) type graph and composite", "why_tests_cant": "cyclic structures of any size", "anchors": ["mapry/__init__.py: _references, references", "mapry/py/generate/fromjsonable.py: _parse_embed", "mapry/go/generate/fromjsonable.py: _parse_embed", "mapry/cpp/generate/jsoncpp_impl.py: _parse_embed"]}
{"id": "C30", "title": "Compiled Go patterns are uniquely identified and complete", "statement": "The Go generator assigns to every pattern occurring in the schema (ID patterns, string and path patterns at any nesting depth) exactly one global regular-expression variable, different patterns get different variables, and the internal uniqueness assertion never fails.", "quantifier": "every schema", "why_tests_cant": "patterns may repeat and occur at any depth", "anchors": ["mapry/go/generate/fromjsonable.py: _enumerate_patterns, _compile_regexes"]}
{"id": "C31", "title": "Type iteration covers every value type", "statement": "`iterate_over_types(graph)` yields exactly the property types of classes, embeds and the graph together with all their nested value types, each with the reference path of its definition.", "quantifier": "every schema", "why_tests_cant": "arbitrary nesting", "anchors": ["mapry/__init__.py: iterate_over_types"]}
{"id": "C32", "title": "Schema parsing fails only with schema errors", "statement": "`schema_from_mapping` applied to any JSON mapping either returns a schema or raises SchemaError; no other exception escapes.", "quantifier": "every JSON mapping", "why_tests_cant": "all JSON values", "anchors": ["mapry/parse.py: schema_from_mapping", "mapry/validation.py: validate"]}
{"id": "C33", "title": "Validated schemas are well-formed", "statement": "If validation reports no error then composite names are unique, every property type is known, every pattern compiles, numeric and size ranges are satisfiable as stated, and property names are well-formed and not reserved.", "quantifier": "every JSON mapping accepted by validation", "why_tests_cant": "all JSON values", "anchors": ["mapry/validation.py: validate"]}
{"id": "C34", "title": "Well-formed schemas are accepted", "statement": "Validation reports no error for any mapping that satisfies the documented well-formedness rules.", "quantifier": "every well-formed JSON mapping", "why_tests_cant": "all JSON values", "anchors": ["mapry/validation.py: validate", "mapry/schemas.py"]}
{"id": "C35", "title": "The parsed schema says what the mapping says", "statement": "The schema object returned for an accepted mapping contains the same classes, embeds, properties in the same order with the same types, constraints, optionality and JSON names (defaulting as documented) as the mapping.", "quantifier": "every accepted JSON mapping", "why_tests_cant": "all JSON values, nested types", "anchors": ["mapry/parse.py: schema_from_mapping, _recurse_type_from_mapping, _properties_from_mapping"]}
{"id": "C36", "title": "Python validation catches identifier clashes", "statement": "If the Python schema validation reports no error then the identifiers generated for composites are pairwise distinct, the attributes of each generated class (including id and registries) are pairwise distinct, and none is a Python keyword; if it reports an error there is such a clash.", "quantifier": "every schema", "why_tests_cant": "all sets of names", "anchors": ["mapry/py/validation.py: validate_schema"]}
{"id": "C37", "title": "Go validation catches identifier clashes", "statement": "If the Go schema validation reports no error then the Go type names of the composites are pairwise distinct and distinct from the names the generated code reserves, and the fields of each struct are pairwise distinct and no keywords.", "quantifier": "every schema", "why_tests_cant": "all sets of names", "anchors": ["mapry/go/validation.py: validate_schema, _validate_graph_fields"]}
{"id": "C38", "title": "C++ validation catches identifier clashes", "statement": "If the C++ schema validation reports no error then the C++ identifiers generated for composites and for the fields of each struct are pairwise distinct and no keywords.", "quantifier": "every schema", "why_tests_cant": "all sets of names", "anchors": ["mapry/cpp/validation.py: validate_schema"]}
{"id": "C39", "title": "String literals denote the original text", "statement": "The C++ and Go string literals produced for a text (JSON keys, patterns, formats) are well-formed literals of the target language and denote exactly the text.", "quantifier": "every text", "why_tests_cant": "all strings including control characters, quotes and backslashes", "anchors": ["mapry/cpp/generate/__init__.py: escaped_str", "mapry/go/generate/__init__.py: escaped_str"]}
{"id": "C40", "title": "Backticked Go literals denote the original text", "statement": "The Go expression produced by ticked_str for a pattern is a concatenation of literals whose value is exactly the pattern.", "quantifier": "every text", "why_tests_cant": "all strings including backticks", "anchors": ["mapry/go/generate/__init__.py: ticked_str"]}
{"id": "C41", "title": "Comments never leak code", "statement": "The comment generated for a description consists only of comment lines and contains every line of the description: no line of the description can end up as code and the line following the comment is not swallowed.", "quantifier": "every description", "why_tests_cant": "all strings including unusual line separators and trailing backslashes", "anchors": ["mapry/py/generate/__init__.py: comment", "mapry/cpp/generate/__init__.py: comment", "mapry/go/generate/__init__.py: comment"]}
{"id": "C42", "title": "Docstrings are well-formed and denote the description", "statement": "The Python docstring literal generated for a description is a complete string literal and denotes the description (up to surrounding line breaks).", "quantifier": "every non-empty description", "why_tests_cant": "all strings including quotes and backslashes", "anchors": ["mapry/py/generate/__init__.py: docstring"]}
{"id": "C43", "title": "Re-indentation only changes leading indentation", "statement": "`reindent` keeps the sequence of lines and of line contents and replaces each line's indention of 4n spaces (relative to the common margin) by n copies of the requested indention (plus the level).", "quantifier": "every text, level and indention string", "why_tests_cant": "all texts", "anchors": ["mapry/indention.py: reindent"]}
{"id": "C44", "title": "Generated local variables never clash", "statement": "Within the body of one generated function all automatically numbered variables are distinct: nested value parsing and serialization never reuse an identifier number.", "quantifier": "every type, at any nesting depth, and every property list", "why_tests_cant": "arbitrary nesting", "anchors": ["mapry/py/generate/__init__.py: AutoID", "mapry/go/generate/__init__.py: AutoID", "mapry/cpp/generate/jsoncpp_impl.py: _AutoID"]}
{"id": "C45", "title": "Constructor arguments are ordered legally", "statement": "The arguments of generated Python constructors are a permutation of the properties in which required ones precede the optional ones and the schema order is otherwise kept.", "quantifier": "every list of properties", "why_tests_cant": "all lists", "anchors": ["mapry/py/generate/__init__.py: order_by_optional", "mapry/py/generate/types.py"]}
{"id": "C46", "title": "The command line tool writes nothing on invalid schemas", "statement": "The command generating code for a language ends with exit code 0 exactly if the schema can be read, is valid for that language, states its settings and the output directory can be made; then exactly the announced files are written to it, with the generated texts, and nothing else is touched. Otherwise it fails and leaves the file system unchanged.", "quantifier": "every schema file, target language, argument and state of the file system", "why_tests_cant": "all states of the file system", "anchors": ["mapry/main.py"]}
{"id": "C47", "title": "JSON syntax errors are located", "statement": "When the schema file is not valid JSON the reported location shows the offending line with the caret placed under the offending column.", "quantifier": "every text and every error position", "why_tests_cant": "all texts", "anchors": ["mapry/parse.py: schema_from_json_file"]}
{"id": "C48", "title": "Go sources import exactly what they use", "statement": "The import declaration of each generated Go source lists exactly the packages used in the source (Go rejects both missing and superfluous imports).", "quantifier": "every schema", "why_tests_cant": "all schemas", "anchors": ["mapry/go/generate/fromjsonable.py: _imports", "mapry/go/generate/tojsonable.py: _imports", "mapry/go/generate/types.py: _imports"]}
{"id": "C49", "title": "Generated C++ structures are defined before use", "statement": "In the generated C++ types header every embeddable structure that another structure contains by value is completely defined before the containing structure.", "quantifier": "every accepted schema", "why_tests_cant": "all containment graphs and declaration orders", "anchors": ["mapry/cpp/generate/types_header.py: generate"]}
{"id": "C50", "title": "Go integers are parsed exactly", "statement": "The generated Go parser accepts a JSON number for an integer property exactly when it is a whole number representable as int64 that satisfies the bounds, and the stored integer equals the number.", "quantifier": "every float64 value and all bounds", "why_tests_cant": "2^64 floats including boundary values 2^63, -2^63", "anchors": ["mapry/go/generate/fromjsonable.py: _PARSE_INTEGER_TPL"]}
{"id": "C51", "title": "Errors of the generated parsers are true and complete", "statement": "Every error reported by a generated parser points to a place of the document, by its reference, and says what is wrong there; if the error capacity is not exhausted, everything wrong is reported: first all that is wrong with the registries of class instances, or, if nothing is, all that is wrong in the document. The message names the expectation of the schema and what was found.", "quantifier": "every schema, every JSON document, every capacity, Python, Go and C++", "why_tests_cant": "all places in documents of any depth, all combinations of several errors, all orders in which Go visits maps", "anchors": ["mapry/py/generate/fromjsonable.py: _PARSE_*_TPL", "mapry/go/generate/fromjsonable.py: _PARSE_*_TPL", "mapry/cpp/generate/jsoncpp_impl.py: _PARSE_*_TPL"]}
{"id": "C52", "title": "Regular-expression literals denote the schema's pattern", "statement": "The literals into which the Python and the C++ generator put a pattern of the schema are well-formed literals of the language and denote exactly the pattern.", "quantifier": "every pattern text", "why_tests_cant": "patterns are arbitrary text; quotes, backslashes and closing delimiters can occur at any position", "anchors": ["mapry/py/generate/fromjsonable.py: _PARSE_STRING_TPL, _PARSE_PATH_TPL, _PARSE_GRAPH_TPL", "mapry/cpp/generate/jsoncpp_impl.py: _regex_constants, _PARSE_STRING_TPL, _PARSE_PATH_TPL"]}
{"id": "C53", "title": "Generated Go structures are finite", "statement": "No generated Go structure contains itself by value, directly or through other structures (Go rejects such definitions).", "quantifier": "every accepted schema", "why_tests_cant": "all containment graphs of embeddable structures, of any length of cycle", "anchors": ["mapry/go/generate/types.py: generate, _define_embed", "mapry/go/generate/__init__.py: type_repr"]}
{"id": "C54", "title": "The generated Python types can be imported", "statement": "The generated Python module with the types is accepted by Python and its import succeeds: all names in annotations are defined, no parameter is repeated or a keyword, parameters with defaults come last. After the import all classes, embeddable structures and the object graph are defined.", "quantifier": "every accepted schema which passes the validation for Python, all settings", "why_tests_cant": "all reference graphs, orders of definition, and mixtures of optional and required properties", "anchors": ["mapry/py/generate/types.py: generate, _imports, _define_class, _define_embed, _define_graph, _type_repr"]}
{"id": "C55", "title": "Constructors of generated Python classes store their arguments", "statement": "The constructor of a generated Python class takes exactly the attributes of the schema as keyword arguments and demands exactly the required ones. The new object has exactly these attributes, with the given values; missing optional properties are None, and missing registries of an object graph are new and empty.", "quantifier": "every accepted schema which passes the validation for Python, every class, all arguments", "why_tests_cant": "all sets of properties and all subsets of arguments", "anchors": ["mapry/py/generate/types.py: _CLASS_TPL, _EMBED_TPL, _GRAPH_TPL", "mapry/py/generate/__init__.py: order_by_optional"]}
{"id": "C56", "title": "Generated C++ sources include what they use", "statement": "Every entity of the standard library or of a third party which a generated C++ header or source mentions is declared by a header which is included there, directly or through the generated headers. The generated header with the types includes no header which it does not need.", "quantifier": "every accepted schema with settings for C++, all sets of types, optional properties, classes and libraries for paths, optional values and dates", "why_tests_cant": "which headers are needed depends on the combination of types and settings; common implementations hide missing includes since their headers include each other", "anchors": ["mapry/cpp/generate/types_header.py: _includes", "mapry/cpp/generate/jsoncpp_header.py: _includes", "mapry/cpp/generate/jsoncpp_impl.py: _includes, _needs_regex"]}
{"id": "C57", "title": "Generated Python modules import exactly what they use", "statement": "The generated Python modules which parse and serialize import every module which they mention, so that no NameError is raised when they run, and import no module which they do not mention.", "quantifier": "every accepted schema with settings for Python, all sets of types, patterns, classes and settings", "why_tests_cant": "which modules are needed depends on the combination of types, patterns and settings; a missing import is noticed only when the line is run", "anchors": ["mapry/py/generate/fromjsonable.py: _imports, _needs_regex", "mapry/py/generate/tojsonable.py: _imports", "mapry/py/generate/parse.py: generate"]}
{"id": "C58", "title": "Names in the generated functions mean what they are meant to", "statement": "In the generated sources which parse and serialize, no function is defined twice or hides something which is imported or built in, no parameter or variable is a keyword or is declared twice, and every name which is mentioned refers, whenever the line is executed, to the parameter, variable, function or module which is meant: the names made of the names of the structures and registries do not collide with each other, with the fixed names and with the package.", "quantifier": "every accepted schema, all names of structures, plurals, properties and packages, all types, all executions of the generated functions", "why_tests_cant": "the names are made of the names in the schema, so that collisions depend on pairs of names; a test can only try some", "anchors": ["mapry/py/generate/fromjsonable.py: _PARSE_COMPOSITE_TPL, _PARSE_GRAPH_TPL", "mapry/py/generate/tojsonable.py: _SERIALIZE_CLASS_TPL, _SERIALIZE_GRAPH_TPL", "mapry/py/generate/parse.py", "mapry/go/generate/fromjsonable.py", "mapry/go/generate/tojsonable.py", "mapry/cpp/generate/jsoncpp_impl.py"]}
{"id": "C59", "title": "Generated Go functions use the variables they declare", "statement": "Every variable which a generated Go function declares is used after its declaration in its scope, so that the compiler does not reject the package with 'declared and not used'.", "quantifier": "every accepted schema, all generated functions which parse and serialize, all types at all depths", "why_tests_cant": "the variables are numbered and nested by the types of the schema, and whether one is used depends on the types, bounds and formats inside; a test compiles some schemas only", "anchors": ["mapry/go/generate/fromjsonable.py: _PARSE_GRAPH_TPL, _PARSE_PROPERTY_TPL, _PARSE_MAP_TPL", "mapry/go/generate/tojsonable.py: _SERIALIZE_DATE_TIME_TPL, _SERIALIZE_ARRAY_TPL, _SERIALIZE_MAP_TPL"]}
{"id": "C60", "title": "Generated Go functions are well typed", "statement": "The generated Go functions which parse and serialize are accepted by the type checker: every operand, argument, assignment, index, range, conversion and field selection fits the types of the generated structures, of the other generated functions (with the registries which are passed on, in order) and of the standard library, and every constant is representable in the type it is compared with.", "quantifier": "every accepted schema whose names do not collide, all types at all depths, all statements of all generated functions", "why_tests_cant": "the statements are nested by the types of the schema and the calls pass the registries which an embed needs transitively; a test compiles some schemas only", "anchors": ["mapry/go/generate/fromjsonable.py: _parse_value, _parse_class, _parse_embed, _parse_graph", "mapry/go/generate/tojsonable.py: _serialize_value, _serialize_class_or_embed, _serialize_graph", "mapry/go/generate/types.py", "mapry/go/jinja2_env.py"]}
{"id": "C61", "title": "Messages of the generated Go functions show what they are about", "statement": "In every message which a generated Go function formats, the format has exactly one verb for each argument and the verb fits the type of the argument, so that the message shows the offending value (and not %!d(MISSING) or the like) and the package passes the check of formats of go vet, which go test runs.", "quantifier": "every accepted schema whose names do not collide, all types at all depths, all bounds, patterns and formats of dates and times", "why_tests_cant": "patterns, bounds, names and layouts of the schema become part of the formats; a test tries some", "anchors": ["mapry/go/generate/fromjsonable.py: _PARSE_STRING_TPL, _PARSE_DATE_TIME_TPL, _PARSE_INTEGER_TPL, _PARSE_GRAPH_TPL", "mapry/go/generate/tojsonable.py: _SERIALIZE_GRAPH_TPL"]}
{"id": "C62", "title": "Generated C++ functions are well typed", "statement": "The generated C++ functions which parse and serialize compile as far as types are concerned: every operand, argument, initialization, assignment, reference, dereference, index, iteration and member access fits the types of the generated structures, of the overloads of the generated functions (of which exactly one fits each call, with the registries which are passed on, in order), of the parse errors, of jsoncpp, of the chosen date library and of the standard library; nothing constant is changed, nothing which cannot be copied is copied, and the numbers of the schema are literals.", "quantifier": "every accepted schema with settings for C++ whose structures have different names, all types at all depths, optional or not, all settings, all statements of all generated functions", "why_tests_cant": "the statements are nested by the types of the schema, the overloads and the registries they take depend on the references of all structures; a test compiles some schemas only", "anchors": ["mapry/cpp/generate/jsoncpp_impl.py: _parse_value, _parse_property, _parse_composite, _parse_graph, _serialize_value, _serialize_property, _serialize_class_or_embed, _serialize_graph, generate", "mapry/cpp/generate/types_header.py: _property_fields", "mapry/cpp/generate/__init__.py: type_repr", "mapry/cpp/naming.py: as_field"]}
{"id": "C63", "title": "Schema errors are real and located", "statement": "Every error which the validation of a schema reports names a fault which the document really has, and the reference of the error, read as names of members and indices of items, leads from the document to the place of that fault. No fault is passed over: a document of a wrong shape gets an error at a place where the shape is wrong; in a document of the right shape each duplicate or misplaced name, each invalid identifier of a property, each invalid pattern of identifiers and each reserved property is reported with its reference, each property whose definition is wrong gets an error about a fault in that definition, and so does each property which is stored under the name of a registry. References to different places differ unless a name contains a slash.", "quantifier": "all JSON documents on which the validation returns, ordered or not, all depths of types, all references of the source", "why_tests_cant": "tests have one document for each kind of error; here any number of faults at any places, in nested definitions and in all composites, are combined", "anchors": ["mapry/validation.py: validate, _validate_names, _validate_class, _validate_type_against_schema, _validate_type_recursively, _validate_properties, _validate_plurals, SchemaError", "mapry/schemas.py: GRAPH, TYPE_TO_SCHEMA"]}
{"id": "C64", "title": "Generated C++ structures have no indeterminate members", "statement": "The members of the generated C++ structures have a value from the start: a variable of such a type, declared without an initializer, has no part with an indeterminate value, be it in a structure within a structure. The initializers which the members are declared with fit their types.", "quantifier": "every accepted schema with settings for C++ whose graph is not called like another structure, all structures, all types of properties, all nestings of embeddable structures, all settings", "why_tests_cant": "reading an indeterminate value has no defined effect, so a test may pass on it; which members are affected depends on the nesting of the structures", "anchors": ["mapry/cpp/generate/types_header.py: _default_value, _property_fields, _embed_definition, _class_definition, _graph_definition"]}
{"id": "C65", "title": "The generated C++ header and source fit together", "statement": "Each function which the generated header jsoncpp.h declares is defined exactly once in jsoncpp.cpp, with the same name, the same types of the parameters (the registries of the referenced classes in the same order among them) and the same result; each function there which parses or serializes a structure is declared; no two functions of the source, with the helpers among them, have the same name and the same parameters.", "quantifier": "every accepted schema with settings for C++ whose graph is not called like another structure, all classes and embeddable structures with all references", "why_tests_cant": "an undefined or ambiguous function appears when a program is linked which calls it; which registries a function takes depends on the references of the whole schema and is computed in two places", "anchors": ["mapry/cpp/generate/jsoncpp_header.py: _parse_definitions, _serialize_definitions, generate", "mapry/cpp/generate/jsoncpp_impl.py: _parse_composite, _parse_graph, _serialize_class_or_embed, _serialize_graph, generate"]}
{"id": "C66", "title": "Running the generated Go serializers gives the specified JSON", "statement": "Running the generated Go functions which serialize, statement by statement in a memory with pointers, maps and slices, always comes to an end. The function of the graph returns an object which has exactly the members which the specification of the serialization gives, or nil and an error about the instance which is registered under another identifier, or panics on a nil pointer which a required property has. The graph in the memory is not changed. For an accepted schema and a graph which satisfies it, the JSON text of the returned object is parsed to an equal graph.", "quantifier": "all graphs of types whose functions have different names, all types at all depths, all memories which hold a graph, with any sharing and cycles of references, all layouts of the memory, all fmt.Sprintf", "why_tests_cant": "tests run a few recorded graphs; here the statements of all functions for all schemas are run on all memories", "anchors": ["mapry/go/generate/tojsonable.py: _serialize_value, _serialize_property, _serialize_class_or_embed, _serialize_graph, generate"]}
{"id": "C67", "title": "Running the generated Go parsers gives the specified graph and errors", "statement": "Running the generated Go functions which parse, statement by statement in a memory with pointers, maps and slices, always comes to an end. On any JSON value, the function of the graph panics exactly where the specification of the parsing does; otherwise the container holds exactly the errors which the specification gives, in this order and with these references and texts of messages, and nothing in the memory but the target and the container is changed. If no error was reported, the target holds the graph of the specification, with the references pointing to the registered instances. For an accepted schema, a graph which satisfies it is serialized by the generated serializer to an object which the generated parser reads back as an equal graph. For an accepted schema, a run which ends without errors means that the JSON value conforms to the schema and that the target holds a graph which represents it, and the run on a conforming value without null ends without errors.", "quantifier": "all graphs of types which compile, all types at all depths, all JSON values, all memories and places of the target, all capacities of the container, all fmt.Sprintf", "why_tests_cant": "tests run a few recorded inputs; here the statements of all functions for all schemas are run on all JSON values", "anchors": ["mapry/go/generate/fromjsonable.py: _parse_value, _parse_property, _parse_composite, _parse_graph, generate"]}
