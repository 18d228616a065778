# Formal model of mapry in Rocq (Coq 8.16.1)

## 1. Approach

mapry reads a schema (a JSON mapping), validates it, and generates Python, Go
and C++ code that parses JSON into object graphs and serializes them back.  Two
kinds of code are modelled:

* the generator itself (naming, format tokenizer, schema validation and parsing,
  type-graph queries, language validators, text utilities, command line) as
  total Gallina functions mirroring the Python functions branch by branch;
* the *generated* code, as the denotation of the templates: one Gallina function
  per template (`_PARSE_INTEGER_TPL`, `_PARSE_GRAPH_TPL`, ...) which takes the
  type the template is instantiated with and runs what the instantiated code
  does.  Exceptions and panics are values.

Conventions: Python `str` is `list N` (code points); dictionaries are ordered
association lists; floats are `SpecFloat.spec_float`; object identity of a
composite is its name.  External functions (regular-expression engines,
strptime/strftime, pytz, pathlib) are Section variables, i.e. every theorem is
universally quantified over them.

Files in `rocq/theories`: `Base*.v` (strings, dictionaries), `M_*.v` (model),
`S_*.v` (independent specifications), `P_*.v` (proofs), `T_*.v` (final theorems
with `Print Assumptions` and non-vacuity examples).

## 2. Plan per property

| id | modelled | how proved |
|----|----------|-----------|
| C01 | `Errors` of Py/Go/C++ | induction over the sequence of additions; refinement to `firstn cap` |
| C02 | denotation of the Python parser templates | invariant "result set or error recorded" by induction over types |
| C03 | same | induction over types; declarative conformance relation in `S_*` |
| C04 | same | induction over types |
| C05 | same, registries as key sets | induction over types |
| C06 | same | two-run simulation, prefix relation |
| C07 | same | congruence: only looked-up keys matter |
| C08 | same, exceptions as values | refuted by a null registry; partial theorem for the rest |
| C09 | parser + serializer templates | induction over types, distinct-key lemma |
| C10 | serializer templates | case analysis + induction over registries |
| C11-C13 | duration printers/parsers, float64 as rounded integers | arithmetic (lia/div-mod), digit-string lemmas |
| C14 | duration parsers vs. grammar, and vs. the exact rational value of the text (S_DurValue.v) | induction over strings; rounding-error analysis of the binary64 operations over the rationals (P_FloatErr.v, P_DurErr.v, P_DurErrPy.v) |
| C15 | Go templates with panics as values | refuted (two broken instances) ; partial |
| C16, C17 | Go templates | as C03/C04/C09 |
| C18, C19 | C++ templates | as above; C19 refuted (null for empty composite; registry named as the graph is lost), partial |
| C20 | the three parsers and serializers, and which JSON values are the same document to two JSON libraries (`S_Interop.same_doc`) | conformity is carried from one language to the other by induction on it; both graphs represent the document, hence are the same; the hypotheses are that texts accepted by the sender's libraries are accepted by the receiver's (shown for durations and free texts) and numbers fit in both; refuted for patterns, null, `true`, long integers and nanoseconds, partial |
| C21 | `tm_to_string` loop as iteration | refuted (divergence for a concrete strftime result), partial |
| C22, C23 | naming.py | computed refutations and positive theorems for the restricted grammar |
| C24 | validation | refuted (explicit `json`), partial |
| C25-C27 | strftime.py, timeformat.py, Go's nextStdChunk (trusted) | induction over strings |
| C28, C29 | `__init__.py` on heap-like type graphs | DFS invariants, fuel shown sufficient |
| C30, C31 | `iterate_over_types`, enumeration of patterns and their variables in Go | induction on types; invariant: assigned numbers distinct and below the next |
| C32-C35 | schemas.py (as data), JSON-schema subset interpreter, validation.py, parse.py | case analysis, induction over nesting |
| C36-C38 | `mapry/{py,go,cpp}/validation.py` as one function of the keywords and namings | no errors iff no clash, errors are real, by induction over name lists; refuted for the identifier of the graph |
| C03-C19 for documents (`*_accepted*`) | parsing and validation composed with the generated code (`T_EndToEnd`) | the validations establish the hypotheses about names |
| C39-C43 | text utilities with small lexers of the target languages as spec | induction over strings |
| C44, C45 | AutoID, order_by_optional | counters monotone; permutation |
| C46 | main.py over an abstract file system | induction over paths and files; refuted for the output directory and half-written output, partial |
| C47 | cursor computation | induction over the lines; refuted for the end of the text and other separators, partial |
| C48 | `_imports` vs. usage by templates | the types in the graph decide both, by case analysis; refuted for `strings` in the parser of a schema without classes and properties, partial |
| C49 | declarations and definitions of the C++ types header in order | induction over the embeds; exact condition on the order, refuted, partial |
| C53 | Go structures by value | induction on the requirement relation; exact condition, refuted, partial |
| C54 | the Python types module as annotated definitions; import as a run over them | invariant: the names needed by annotations are defined; refuted for `self`, partial |
| C55 | constructors as parameters and statements, keyword calls | induction over parameters and statements; refuted for `collections`, partial |
| C56 | `_includes` vs. the entities mentioned by the templates; table of the declarations of headers | both sides characterised by the types in the graph; refuted for keys of maps and for durations, partial |
| C57 | `_imports` vs. the modules mentioned by the templates | both sides characterised by the types in the graph |
| C58 | the generated functions as the names they declare and mention, in blocks; what is meant is kept beside each name | a static analysis, sound for all executions; the names of a schema differ by their first or last letters; refuted in Python for names of structures which differ only in case, the package, and two pairs of names, in Go for plurals and for a pair of names, in C++ for names which are keywords in lower case, `Json`, the namespaces, and two pairs of names, partial |
| C59 | the same model of the Go functions | induction over the types: each value is read first; refuted for empty graphs and empty formats, partial |
| C60 | the same functions as statements and expressions with types; the typing rules of the fragment of Go as a small spec (S_GoTyping) | induction over the types of the properties, over the statements of the functions; refuted for bounds which overflow, partial |
| C61 | the formats in the same functions, with the verbs of the package fmt | the same proof, with the texts of the templates computed; refuted for patterns with a percent sign, partial |
| C62 | the C++ functions which parse and serialize as statements and expressions with types, value categories, references and overloads; the typing rules of the fragment of C++ and of the members of the libraries as a small spec (S_CppTyping) | induction over the types of the properties and over the statements of the functions; overloads told apart by the number of the registries or the type of the target; refuted for optional dates with date.h, property names with capital letters and bounds which are no literals, partial |
| C63 | the validation with the references of its errors; the places jsonschema may blame as a set; ways through a document, faults of composites and definitions, and the shape of documents as a small spec (S_SchemaErrors) | induction over definitions and over JSON schemas; each check of the validation reports exactly the faults of its kind; references of clashes with registries and of missing values refuted, partial |
| C64 | the members of the generated C++ structures with their initializers (M_CppInit); which types have no value of their own, through members which are structures or arrays, as a small spec (S_CppInit) | inversion over the definitions of the properties, induction over the nesting of embeddable structures; the members left open characterized; refuted for required durations, partial |
| C65 | the declarations of the C++ header (M_CppHeader) against the names and types of the functions of M_CppTyping | permutation of the lists of declarations; the structure a function is about is read off its parameters, so that distinct names give distinct overloads; refuted where the graph is called like a class, partial |
| C66 | the statements of M_GoTyping, run as S_GoRun says (memory of cells, pointers into parts of values, maps, slices, panics, fuel); how a memory holds a graph of M_GoGen (S_GoMemory) | refinement: induction over the type of a value, over items, entries, properties and registries; each step leaves the cells it was given unchanged; partial like C17 for the round trip |
| C67 | the parsing functions of M_GoTyping, run as S_GoRun says; how a memory holds a JSON value and the container of the errors with the texts of the messages (S_GoMemory) | refinement: induction over the type of a value; every run of a fragment agrees with the corresponding function of M_GoGen, with the cells listed which it may change; then the registries, the instances and the properties of the graph (P_GoRunRoot). Partial: maps are visited in the order in which they are stored (C16 shows that the order is irrelevant without errors), the target has its zero value, no embeddable structure requires itself (C53; the zero values then exist by induction over the structures which are not yet visited, P_GoRunFinite), and the checks and the round trip need the hypotheses of C16 and C17 |
| C50 | `_PARSE_INTEGER_TPL` of Go over spec_float | arithmetic |
| C51 | errors of the three parsers; places and complaints as a small spec (S_Blame) | one combinator per language: a step reports exactly the complaints about its part; induction over the document; unambiguous references refuted, and proved for keys without slashes (partial) |
| C52 | literals of patterns with small lexers as spec | induction over strings; refuted for quotes and the closing sequence, partial |

## 3. Trusted base

* Coq 8.16.1: kernel, `vm_compute`, and the standard library.  No other library
  is required.  No axiom is declared; `Print Assumptions` at the end of every
  `T_*.v` file answers "Closed under the global context" for every listed
  theorem.  (Loading `Lia` also loads `Coq.ssr.ssrunder`, whose parameters no
  theorem uses.)
* The model: that the Gallina functions do what the cited Python code, or the
  code generated from the cited templates, does.  Every definition cites the
  lines it models and names its simplifications.
* The behaviour of the libraries called by generated code, as far as it is
  written down as a function instead of being a parameter: integer and float
  parsing and formatting of the three languages inside durations, the regular
  expression of durations, `encoding/json` (`M_GoGen.via_json`),
  `Json::Value` conversions (`M_CppGen.as_int64`, `as_double`), Go's
  `nextStdChunk` (`M_Strftime`), `textwrap.dedent` and `str.splitlines`
  (`M_Text`, `Base`).
* The small semantics of the fragment of Go in `S_GoRun` (C66, C67), with its simplifications; `fmt.Sprintf` is any function of the format and the arguments.
* The table of the headers and their declarations in `S_Imports`.
* The small lexers of Python, Go and C++ in `S_Text`, which say what a literal
  denotes and what a comment hides.

Parameters of the model (theorems hold for every choice): `json.load`, which texts
can be encoded, the path of an argument, the texts of the generated files (in
`M_Main`), regular-expression
matching, which patterns `re.compile` accepts, whether the mapping is ordered, `strptime`/`strftime`, `time.Parse`/`Format`, `date::parse`/`format`,
time-zone databases, the iteration order of Go maps and JSON objects, the value
of the uninitialized flag in the C++ `duration_from_string`, the largest size
of a `std::string`.

### Checks of the model against the records of the project

The project keeps, under /repo/test_cases, the generated code for its schemas and
recorded runs of that code.  `tools/golden*.py` turn these records into Coq data
(`G_Cases`, `G_GoSources`, `G_CppSources`, `G_PySources`), and `G_Golden` computes
with `vm_compute` that the model agrees with them.  These are tests of the model:
no theorem depends on them and none is listed in the manifest.

* Runs: 119 in Python, 119 in Go, 133 in C++: the lines of the errors in their
  order, or the serialized value.  Of messages made by a library only the part
  written by the template is compared.  Two runs are left out: their input is an
  infinite number, which the JSON library rejects before the generated code runs.
* Go, 52 schemas: the functions and structures as printed from the syntax trees of
  `M_GoTyping` (C60), the variables of patterns (C30), the names of `M_GoScope`
  (C58), the imports (C48).
* C++, 60 schemas: the same for `M_CppTyping` (C62), `M_CppInit` (C64), `M_CppHeader` (C65), `M_CppScope` (C58),
  `M_CppIncludes` (C56).
* Python, 54 schemas: the classes (C54, C55), the imports (C57), the names in the
  functions (C58).
* The unit tests under /repo/tests and the tests of durations which mapry generates
  for Go, in `G_Units`: their inputs give their results in the model.

Both sides of the comparison of texts are normalised, as `G_GoText` and `G_CppText`
say: without blanks, comments, parentheses, separators and the decimals `.0`;
`(*a).b` is `a->b` and adjacent
literals are one in C++.  The functions known only by their signatures (durations,
`message`, `value_type_to_string`, `tm_to_string`) are left out.  The comparison corrected the model twice
(`M_PyScope`: the builtin `len`, and the order of the functions in parse.py).

## 4. What is modelled

| file | code |
|------|------|
| `M_Naming` | `mapry/naming.py`, `mapry/go/naming.py`, `mapry/cpp/naming.py`, `mapry/py/naming.py` |
| `M_Errors` | the three generated `Errors` containers |
| `M_Strftime` | `mapry/strftime.py`, `mapry/go/timeformat.py`; the layout scanner of Go's `time` |
| `M_Schema`, `M_TypeGraph` | `mapry/__init__.py`: types and composites, `needs_type`, `references` |
| `M_Duration`, `M_Dec` | the duration helpers of the three languages over exact float64 arithmetic |
| `M_PyGen` | `mapry/py/generate/fromjsonable.py`, `tojsonable.py`, placeholders of `parse.py` |
| `M_GoGen` | `mapry/go/generate/fromjsonable.py`, `tojsonable.py`, parsing part |
| `M_CppTime`, `M_CppGen` | `mapry/cpp/generate/jsoncpp_impl.py`, default values of `types_header.py` |
| `M_AutoID` | the numbered local variables declared by the templates of `mapry/*/generate/{from,to}jsonable.py`, `jsoncpp_impl.py`, and `AutoID` |
| `M_Walk` | `mapry/__init__.py`: `iterate_over_types`; `mapry/go/generate/fromjsonable.py`: pattern enumeration, `_compile_regexes` |
| `M_Validate` | `mapry/schemas.py` (as data), the JSON-schema subset it needs, `mapry/validation.py`, `mapry/parse.py`: `schema_from_mapping`; of the errors of jsonschema the paths, as the set of those it may report |
| `M_LangValid` | `mapry/py/validation.py`, `mapry/go/validation.py`, `mapry/cpp/validation.py`; error texts by their branch |
| `M_Main` | `mapry/main.py`: `run`, `generate_*`; `mapry/parse.py`: `schema_from_json_file`; over a file system given as a function of paths |
| `M_GoImports` | `_imports` of `mapry/go/generate/{types,fromjsonable,tojsonable}.py` and which packages the templates use |
| `M_TypeDefs` | the structures of `mapry/cpp/generate/types_header.py` and `mapry/go/generate/types.py`: order, mention and containment by value |
| `M_PyTypes` | `mapry/py/generate/types.py` without its text layout; what Python does on import and on a call of a constructor |
| `M_PyImports` | `_imports` of `mapry/py/generate/{fromjsonable,tojsonable,parse}.py` and which modules the templates use |
| `M_Scope`, `M_PyScope` | the names in the functions of `mapry/py/generate/{fromjsonable,tojsonable,parse}.py` |
| `M_GoScope` | the names in the functions of `mapry/go/generate/{fromjsonable,tojsonable}.py` and those of the package |
| `M_GoTyping` | the statements, expressions and types of the same functions, the structures of `mapry/go/generate/types.py`; the functions which parse and serialize durations and those of parse.py only by their signatures |
| `M_CppTyping` | the statements, expressions and types of the functions of `mapry/cpp/generate/jsoncpp_impl.py`, the structures of `mapry/cpp/generate/types_header.py`; `message`, `value_type_to_string`, `duration_from_string`, `duration_to_string`, `tm_to_string`, `parse::Errors`, jsoncpp, date.h and the standard library only by their signatures (S_CppTyping) |
| `M_CppInit` | the members and initializers of `mapry/cpp/generate/types_header.py` (`_default_value`, `_property_fields`, `_class_definition`, `_embed_definition`, `_graph_definition`) |
| `M_CppHeader` | the declarations of `mapry/cpp/generate/jsoncpp_header.py` (`_parse_definitions`, `_serialize_definitions`, `generate`) |
| `M_CppScope` | the names in the functions of `mapry/cpp/generate/jsoncpp_impl.py` and those of the namespace; types of parameters of `jsoncpp_header.py` |
| `M_CppIncludes` | `_includes` of `mapry/cpp/generate/{types_header,jsoncpp_header,jsoncpp_impl}.py` and which entities the templates mention |
| `M_Text` | `mapry/indention.py`, `comment`, `docstring`, `order_by_optional`, `escaped_str`, `ticked_str` of `mapry/*/generate/__init__.py`, literals of patterns |
| `G_*` | no code: the records of /repo/test_cases, see section 3 |

Not modelled: the text layout of generated code (indention, comments unless
listed in C41-C43), imports unless listed in C48, C56 and C57, memory exhaustion and stack
depth (except in `tm_to_string`), messages of errors beyond their constructor,
the behaviour of C++ code which does not compile (C62): optional dates with date.h (the
template parses into a `std::optional`), property names with capital
letters (the header declares `prop.name`, the parser uses the lower-case name;
hypothesis `names_lower`).  The models of the generated code call the function of a
structure; that its name is not confused with another is the subject of C58.
