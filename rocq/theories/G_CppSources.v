(** Generated by tools/golden_cpp.py from /repo/test_cases: the recorded C++ sources, normalised
    as described in G_CppText.v. *)
From Coq Require Import String List NArith.
From Verif Require Import Base M_Schema G_Cases.
Import ListNotations.

Record cpp_recorded_source := CppSource {
  rs_functions : list str; rs_names : list (list str * list str); rs_declarations : list str; rs_types : list str; rs_types_includes : list str;
  rs_header_includes : list str; rs_impl_includes : list str; rs_parse_includes : list str }.

(** test_cases/cpp/boost_optional/cpp/test_generate *)
Definition cpp_cpp_boost_optional : cpp_recorded_source :=
  CppSource
  [(s_ "voidsome_graph_fromconstJson::Value&valuestd::stringrefSomeGraph*targetparse::Errors*errors{iferrors==nullptr{throwstd::invalid_argument""Unexpected null errors""}if!errors->empty{throwstd::invalid_argument""Unexpected non-empty errors""}if!value.isObject{constautoexpected_but_got""Expected an object, but got: ""errors->addrefmessageexpected_but_gotstrlenexpected_but_gotvalue_type_to_stringvalue.typereturn}std::stringempties_refempties_ref.reserveref.size+8empties_ref+=refempties_ref+=""/empties""ifvalue.isMember""empties""{constJson::Value&objvalue[""empties""]if!obj.isObject{constautoexpected_but_got""Expected an object, but got: ""errors->addempties_refmessageexpected_but_gotstrlenexpected_but_gotvalue_type_to_stringobj.type}else{forJson::ValueConstIteratoritobj.beginit!=obj.end++it{if!std::regex_matchit.nameempty_re::kID{constautoexpected_but_got""Expected ID to match ^[a-zA-Z_][a-zA-Z_0-9]*$, but got: ""errors->addempties_refmessageexpected_but_gotstrlenexpected_but_gotit.nameiferrors->full{break}}else{autoinstancestd::make_unique<Empty>instance->idit.nametarget->empties[it.name]std::moveinstance}}}}if!errors->empty{return}std::stringinstance_refinstance_ref.clearinstance_ref+=empties_refinstance_ref+='/'ifvalue.isMember""empties""{constJson::Value&objvalue[""empties""]forJson::ValueConstIteratoritobj.beginit!=obj.end++it{instance_ref.reserveempties_ref.size+1+it.name.sizeinstance_ref.resizeempties_ref.size+1instance_ref.appendit.nameEmpty*instancetarget->empties.atit.name.getempty_from*itinstance_refinstanceerrorsiferrors->full{break}}}iferrors->full{return}ifvalue.isMember""optional_reference""{constJson::Value&value_0value[""optional_reference""]if!value_0.isString{constautoexpected_but_got""Expected a string, but got: ""errors->addstd::stringref.append""/optional_reference""messageexpected_but_gotstrlenexpected_but_gotvalue_type_to_stringvalue_0.type}else{conststd::string&cast_0value_0.asStringiftarget->empties.countcast_0==0{constautoreference_not_found""Reference to an instance of class Empty not found: ""errors->addstd::stringref.append""/optional_reference""messagereference_not_foundstrlenreference_not_foundcast_0}else{target->optional_referencetarget->empties.atcast_0.get}}}iferrors->full{return}ifvalue.isMember""optional_path""{constJson::Value&value_1value[""optional_path""]if!value_1.isString{constautoexpected_but_got""Expected a string, but got: ""errors->addstd::stringref.append""/optional_path""messageexpected_but_gotstrlenexpected_but_gotvalue_type_to_stringvalue_1.type}else{target->optional_pathboost::filesystem::pathvalue_1.asString}}iferrors->full{return}ifvalue.isMember""optional_array""{target->optional_array.emplaceconstJson::Value&value_2value[""optional_array""]if!value_2.isArray{constautoexpected_but_got""Expected an array, but got: ""errors->addstd::stringref.append""/optional_array""messageexpected_but_gotstrlenexpected_but_gotvalue_type_to_stringvalue_2.type}else{std::vector<int64_t>&target_2*target->optional_arraytarget_2.resizevalue_2.sizesize_ti_20forconstJson::Value&item_2:value_2{if!item_2.isInt64{constautoexpected_but_got""Expected an int64, but got: ""errors->addstd::stringref.append""/optional_array"".append""/"".appendstd::to_stringi_2messageexpected_but_gotstrlenexpected_but_gotvalue_type_to_stringitem_2.type}else{target_2.ati_2item_2.asInt64}++i_2iferrors->full{break}}}}iferrors->full{return}ifvalue.isMember""optional_map""{target->optional_map.emplaceconstJson::Value&value_4value[""optional_map""]if!value_4.isObject{constautoexpected_but_got""Expected an object, but got: ""errors->addstd::stringref.append""/optional_map""messageexpected_but_gotstrlenexpected_but_gotvalue_type_to_stringvalue_4.type}else{std::map<std::stringint64_t>&target_4*target->optional_mapforJson::ValueConstIteratorit_4value_4.beginit_4!=value_4.end++it_4{constJson::Value&value_5*it_4if!value_5.isInt64{constautoexpected_but_got""Expected an int64, but got: ""errors->addstd::stringref.append""/optional_map"".append""/"".appendit_4.namemessageexpected_but_gotstrlenexpected_but_gotvalue_type_to_stringvalue_5.type}else{target_4[it_4.name]value_5.asInt64}iferrors->full{break}}}}iferrors->full{return}}");
   (s_ "voidempty_fromconstJson::Value&valuestd::stringrefEmpty*targetparse::Errors*errors{if!value.isObject{constautoexpected_but_got""Expected an object, but got: ""errors->addrefmessageexpected_but_gotstrlenexpected_but_gotvalue_type_to_stringvalue.typereturn}}");
   (s_ "Json::Valueserialize_emptyconstEmpty&empty{returnJson::objectValue}");
   (s_ "Json::Valueserialize_some_graphconstSomeGraph&some_graph{Json::Valuesome_graph_as_valueifsome_graph.optional_reference{some_graph_as_value[""optional_reference""]*some_graph.optional_reference->id}ifsome_graph.optional_path{some_graph_as_value[""optional_path""]some_graph.optional_path->string}ifsome_graph.optional_array{Json::Valuetarget_0Json::arrayValueconstauto&vector_0*some_graph.optional_arrayforinti_00i_0<vector_0.size++i_0{target_0[i_0]vector_0[i_0]}some_graph_as_value[""optional_array""]std::movetarget_0}ifsome_graph.optional_map{Json::Valuetarget_1Json::objectValueconstauto&map_1*some_graph.optional_mapforconstauto&kv_1:map_1{target_1[kv_1.first]kv_1.second}some_graph_as_value[""optional_map""]std::movetarget_1}if!some_graph.empties.empty{Json::Valueempties_as_valueforconstauto&kv:some_graph.empties{conststd::string&idkv.firstconstEmpty*instancekv.second.getifid!=instance->id{constautoexpected""Expected the class instance of Emptyto have the ID ""constautobut_got"", but got: ""std::stringmsgmsg.reservestrlenexpected+id.size+strlenbut_got+instance->id.sizemsg+=expectedmsg+=idmsg+=but_gotmsg+=instance->idthrowstd::invalid_argumentmsg}empties_as_value[instance->id]serialize_empty*instance}some_graph_as_value[""empties""]empties_as_value}returnsome_graph_as_value}")]
  [([(s_ "value");
   (s_ "ref");
   (s_ "target");
   (s_ "errors")], [(s_ "Empty");
   (s_ "cast_0");
   (s_ "empties_ref");
   (s_ "empty_from");
   (s_ "empty_re");
   (s_ "errors");
   (s_ "expected_but_got");
   (s_ "i_2");
   (s_ "instance");
   (s_ "instance_ref");
   (s_ "int64_t");
   (s_ "it");
   (s_ "it_4");
   (s_ "item_2");
   (s_ "message");
   (s_ "obj");
   (s_ "ref");
   (s_ "reference_not_found");
   (s_ "size_t");
   (s_ "strlen");
   (s_ "target");
   (s_ "target_2");
   (s_ "target_4");
   (s_ "value");
   (s_ "value_0");
   (s_ "value_1");
   (s_ "value_2");
   (s_ "value_4");
   (s_ "value_5");
   (s_ "value_type_to_string")]);
   ([(s_ "value");
   (s_ "ref");
   (s_ "target");
   (s_ "errors")], [(s_ "errors");
   (s_ "expected_but_got");
   (s_ "message");
   (s_ "ref");
   (s_ "strlen");
   (s_ "value");
   (s_ "value_type_to_string")]);
   ([(s_ "empty")], []);
   ([(s_ "some_graph")], [(s_ "Empty");
   (s_ "but_got");
   (s_ "empties_as_value");
   (s_ "expected");
   (s_ "i_0");
   (s_ "id");
   (s_ "instance");
   (s_ "kv");
   (s_ "kv_1");
   (s_ "map_1");
   (s_ "msg");
   (s_ "serialize_empty");
   (s_ "some_graph");
   (s_ "some_graph_as_value");
   (s_ "strlen");
   (s_ "target_0");
   (s_ "target_1");
   (s_ "vector_0")])]
  [(s_ "voidsome_graph_fromconstJson::Value&std::stringSomeGraph*parse::Errors*");
   (s_ "voidempty_fromconstJson::Value&std::stringEmpty*parse::Errors*");
   (s_ "Json::Valueserialize_some_graphconstSomeGraph&");
   (s_ "Json::Valueserialize_emptyconstEmpty&")]
  [(s_ "Empty{std::stringid}");
   (s_ "SomeGraph{boost::optional<Empty*>optional_referenceboost::optional<boost::filesystem::path>optional_pathboost::optional<std::vector<int64_t>>optional_arrayboost::optional<std::map<std::stringint64_t>>optional_mapstd::map<std::stringstd::unique_ptr<Empty>>empties}")]
  [(s_ "boost/filesystem/path.hpp");
   (s_ "boost/optional.hpp");
   (s_ "cstdint");
   (s_ "map");
   (s_ "memory");
   (s_ "string");
   (s_ "vector")] [(s_ "boost/filesystem/path.hpp");
   (s_ "boost/optional.hpp");
   (s_ "json/json.h");
   (s_ "map");
   (s_ "string")] [(s_ "cstring");
   (s_ "memory");
   (s_ "regex");
   (s_ "sstream");
   (s_ "stdexcept");
   (s_ "string");
   (s_ "utility")] [(s_ "string");
   (s_ "vector")].

(** test_cases/cpp/class_error_causes_no_conflict/cpp/test_generate *)
Definition cpp_cpp_class_error_causes_no_conflict : cpp_recorded_source :=
  CppSource
  [(s_ "voidsome_graph_fromconstJson::Value&valuestd::stringrefSomeGraph*targetparse::Errors*errors{iferrors==nullptr{throwstd::invalid_argument""Unexpected null errors""}if!errors->empty{throwstd::invalid_argument""Unexpected non-empty errors""}if!value.isObject{constautoexpected_but_got""Expected an object, but got: ""errors->addrefmessageexpected_but_gotstrlenexpected_but_gotvalue_type_to_stringvalue.typereturn}std::stringerrors_referrors_ref.reserveref.size+7errors_ref+=referrors_ref+=""/errors""ifvalue.isMember""errors""{constJson::Value&objvalue[""errors""]if!obj.isObject{constautoexpected_but_got""Expected an object, but got: ""errors->adderrors_refmessageexpected_but_gotstrlenexpected_but_gotvalue_type_to_stringobj.type}else{forJson::ValueConstIteratoritobj.beginit!=obj.end++it{autoinstancestd::make_unique<Error>instance->idit.nametarget->errors[it.name]std::moveinstance}}}if!errors->empty{return}std::stringinstance_refinstance_ref.clearinstance_ref+=errors_refinstance_ref+='/'ifvalue.isMember""errors""{constJson::Value&objvalue[""errors""]forJson::ValueConstIteratoritobj.beginit!=obj.end++it{instance_ref.reserveerrors_ref.size+1+it.name.sizeinstance_ref.resizeerrors_ref.size+1instance_ref.appendit.nameError*instancetarget->errors.atit.name.geterror_from*itinstance_refinstanceerrorsiferrors->full{break}}}iferrors->full{return}}");
   (s_ "voiderror_fromconstJson::Value&valuestd::stringrefError*targetparse::Errors*errors{if!value.isObject{constautoexpected_but_got""Expected an object, but got: ""errors->addrefmessageexpected_but_gotstrlenexpected_but_gotvalue_type_to_stringvalue.typereturn}}");
   (s_ "Json::Valueserialize_errorconstError&error{returnJson::objectValue}");
   (s_ "Json::Valueserialize_some_graphconstSomeGraph&some_graph{Json::Valuesome_graph_as_valueif!some_graph.errors.empty{Json::Valueerrors_as_valueforconstauto&kv:some_graph.errors{conststd::string&idkv.firstconstError*instancekv.second.getifid!=instance->id{constautoexpected""Expected the class instance of Errorto have the ID ""constautobut_got"", but got: ""std::stringmsgmsg.reservestrlenexpected+id.size+strlenbut_got+instance->id.sizemsg+=expectedmsg+=idmsg+=but_gotmsg+=instance->idthrowstd::invalid_argumentmsg}errors_as_value[instance->id]serialize_error*instance}some_graph_as_value[""errors""]errors_as_value}returnsome_graph_as_value}")]
  [([(s_ "value");
   (s_ "ref");
   (s_ "target");
   (s_ "errors")], [(s_ "Error");
   (s_ "error_from");
   (s_ "errors");
   (s_ "errors_ref");
   (s_ "expected_but_got");
   (s_ "instance");
   (s_ "instance_ref");
   (s_ "it");
   (s_ "message");
   (s_ "obj");
   (s_ "ref");
   (s_ "strlen");
   (s_ "target");
   (s_ "value");
   (s_ "value_type_to_string")]);
   ([(s_ "value");
   (s_ "ref");
   (s_ "target");
   (s_ "errors")], [(s_ "errors");
   (s_ "expected_but_got");
   (s_ "message");
   (s_ "ref");
   (s_ "strlen");
   (s_ "value");
   (s_ "value_type_to_string")]);
   ([(s_ "error")], []);
   ([(s_ "some_graph")], [(s_ "Error");
   (s_ "but_got");
   (s_ "errors_as_value");
   (s_ "expected");
   (s_ "id");
   (s_ "instance");
   (s_ "kv");
   (s_ "msg");
   (s_ "serialize_error");
   (s_ "some_graph");
   (s_ "some_graph_as_value");
   (s_ "strlen")])]
  [(s_ "voidsome_graph_fromconstJson::Value&std::stringSomeGraph*parse::Errors*");
   (s_ "voiderror_fromconstJson::Value&std::stringError*parse::Errors*");
   (s_ "Json::Valueserialize_some_graphconstSomeGraph&");
   (s_ "Json::Valueserialize_errorconstError&")]
  [(s_ "Error{std::stringid}");
   (s_ "SomeGraph{std::map<std::stringstd::unique_ptr<Error>>errors}")]
  [(s_ "map");
   (s_ "memory");
   (s_ "string")] [(s_ "json/json.h");
   (s_ "map");
   (s_ "string")] [(s_ "cstring");
   (s_ "memory");
   (s_ "sstream");
   (s_ "stdexcept");
   (s_ "string");
   (s_ "utility")] [(s_ "string");
   (s_ "vector")].

(** test_cases/cpp/datetime_library_date/date/cpp/test_generate *)
Definition cpp_cpp_datetime_library_date_date : cpp_recorded_source :=
  CppSource
  [(s_ "voidsome_graph_fromconstJson::Value&valuestd::stringrefSomeGraph*targetparse::Errors*errors{iferrors==nullptr{throwstd::invalid_argument""Unexpected null errors""}if!errors->empty{throwstd::invalid_argument""Unexpected non-empty errors""}if!value.isObject{constautoexpected_but_got""Expected an object, but got: ""errors->addrefmessageexpected_but_gotstrlenexpected_but_gotvalue_type_to_stringvalue.typereturn}if!value.isMember""some_date""{errors->addref""Property is missing: some_date""}else{constJson::Value&value_0value[""some_date""]if!value_0.isString{constautoexpected_but_got""Expected a string, but got: ""errors->addstd::stringref.append""/some_date""messageexpected_but_gotstrlenexpected_but_gotvalue_type_to_stringvalue_0.type}else{std::istringstreamiss_0value_0.asStringiss_0>>date::parse""%Y/%m/%d""target->some_dateifiss_0.fail{constautoexpected_but_got""Expected to date::parse %Y/%m/%d, but got: ""errors->addstd::stringref.append""/some_date""messageexpected_but_gotstrlenexpected_but_gotvalue_0.asString}}}iferrors->full{return}if!value.isMember""formatless_date""{errors->addref""Property is missing: formatless_date""}else{constJson::Value&value_1value[""formatless_date""]if!value_1.isString{constautoexpected_but_got""Expected a string, but got: ""errors->addstd::stringref.append""/formatless_date""messageexpected_but_gotstrlenexpected_but_gotvalue_type_to_stringvalue_1.type}else{std::istringstreamiss_1value_1.asStringiss_1>>date::parse""%Y-%m-%d""target->formatless_dateifiss_1.fail{constautoexpected_but_got""Expected to date::parse %Y-%m-%d, but got: ""errors->addstd::stringref.append""/formatless_date""messageexpected_but_gotstrlenexpected_but_gotvalue_1.asString}}}iferrors->full{return}}");
   (s_ "Json::Valueserialize_some_graphconstSomeGraph&some_graph{Json::Valuesome_graph_as_valuesome_graph_as_value[""some_date""]date::format""%Y/%m/%d""some_graph.some_datesome_graph_as_value[""formatless_date""]date::format""%Y-%m-%d""some_graph.formatless_datereturnsome_graph_as_value}")]
  [([(s_ "value");
   (s_ "ref");
   (s_ "target");
   (s_ "errors")], [(s_ "errors");
   (s_ "expected_but_got");
   (s_ "iss_0");
   (s_ "iss_1");
   (s_ "message");
   (s_ "ref");
   (s_ "strlen");
   (s_ "target");
   (s_ "value");
   (s_ "value_0");
   (s_ "value_1");
   (s_ "value_type_to_string")]);
   ([(s_ "some_graph")], [(s_ "some_graph");
   (s_ "some_graph_as_value")])]
  [(s_ "voidsome_graph_fromconstJson::Value&std::stringSomeGraph*parse::Errors*");
   (s_ "Json::Valueserialize_some_graphconstSomeGraph&")]
  [(s_ "SomeGraph{date::local_dayssome_datedate::local_daysformatless_date}")]
  [(s_ "date/date.h")] [(s_ "json/json.h")] [(s_ "date/date.h");
   (s_ "cstring");
   (s_ "memory");
   (s_ "sstream");
   (s_ "stdexcept");
   (s_ "string");
   (s_ "utility")] [(s_ "string");
   (s_ "vector")].

(** test_cases/cpp/datetime_library_date/datetime/cpp/test_generate *)
Definition cpp_cpp_datetime_library_date_datetime : cpp_recorded_source :=
  CppSource
  [(s_ "voidsome_graph_fromconstJson::Value&valuestd::stringrefSomeGraph*targetparse::Errors*errors{iferrors==nullptr{throwstd::invalid_argument""Unexpected null errors""}if!errors->empty{throwstd::invalid_argument""Unexpected non-empty errors""}if!value.isObject{constautoexpected_but_got""Expected an object, but got: ""errors->addrefmessageexpected_but_gotstrlenexpected_but_gotvalue_type_to_stringvalue.typereturn}if!value.isMember""some_datetime""{errors->addref""Property is missing: some_datetime""}else{constJson::Value&value_0value[""some_datetime""]if!value_0.isString{constautoexpected_but_got""Expected a string, but got: ""errors->addstd::stringref.append""/some_datetime""messageexpected_but_gotstrlenexpected_but_gotvalue_type_to_stringvalue_0.type}else{std::istringstreamiss_0value_0.asStringiss_0>>date::parse""%Y/%m/%d %H-%M-%SZ""target->some_datetimeifiss_0.fail{constautoexpected_but_got""Expected to date::parse %Y/%m/%d %H-%M-%SZ, but got: ""errors->addstd::stringref.append""/some_datetime""messageexpected_but_gotstrlenexpected_but_gotvalue_0.asString}}}iferrors->full{return}if!value.isMember""formatless_datetime""{errors->addref""Property is missing: formatless_datetime""}else{constJson::Value&value_1value[""formatless_datetime""]if!value_1.isString{constautoexpected_but_got""Expected a string, but got: ""errors->addstd::stringref.append""/formatless_datetime""messageexpected_but_gotstrlenexpected_but_gotvalue_type_to_stringvalue_1.type}else{std::istringstreamiss_1value_1.asStringiss_1>>date::parse""%Y-%m-%dT%H:%M:%SZ""target->formatless_datetimeifiss_1.fail{constautoexpected_but_got""Expected to date::parse %Y-%m-%dT%H:%M:%SZ, but got: ""errors->addstd::stringref.append""/formatless_datetime""messageexpected_but_gotstrlenexpected_but_gotvalue_1.asString}}}iferrors->full{return}}");
   (s_ "Json::Valueserialize_some_graphconstSomeGraph&some_graph{Json::Valuesome_graph_as_valuesome_graph_as_value[""some_datetime""]date::format""%Y/%m/%d %H-%M-%SZ""some_graph.some_datetimesome_graph_as_value[""formatless_datetime""]date::format""%Y-%m-%dT%H:%M:%SZ""some_graph.formatless_datetimereturnsome_graph_as_value}")]
  [([(s_ "value");
   (s_ "ref");
   (s_ "target");
   (s_ "errors")], [(s_ "errors");
   (s_ "expected_but_got");
   (s_ "iss_0");
   (s_ "iss_1");
   (s_ "message");
   (s_ "ref");
   (s_ "strlen");
   (s_ "target");
   (s_ "value");
   (s_ "value_0");
   (s_ "value_1");
   (s_ "value_type_to_string")]);
   ([(s_ "some_graph")], [(s_ "some_graph");
   (s_ "some_graph_as_value")])]
  [(s_ "voidsome_graph_fromconstJson::Value&std::stringSomeGraph*parse::Errors*");
   (s_ "Json::Valueserialize_some_graphconstSomeGraph&")]
  [(s_ "SomeGraph{date::local_secondssome_datetimedate::local_secondsformatless_datetime}")]
  [(s_ "date/date.h")] [(s_ "json/json.h")] [(s_ "date/date.h");
   (s_ "cstring");
   (s_ "memory");
   (s_ "sstream");
   (s_ "stdexcept");
   (s_ "string");
   (s_ "utility")] [(s_ "string");
   (s_ "vector")].

(** test_cases/cpp/datetime_library_date/optional_timezone/cpp/test_generate *)
Definition cpp_cpp_datetime_library_date_optional_timezone : cpp_recorded_source :=
  CppSource
  [(s_ "voidsome_graph_fromconstJson::Value&valuestd::stringrefSomeGraph*targetparse::Errors*errors{iferrors==nullptr{throwstd::invalid_argument""Unexpected null errors""}if!errors->empty{throwstd::invalid_argument""Unexpected non-empty errors""}if!value.isObject{constautoexpected_but_got""Expected an object, but got: ""errors->addrefmessageexpected_but_gotstrlenexpected_but_gotvalue_type_to_stringvalue.typereturn}ifvalue.isMember""some_time_zone""{constJson::Value&value_0value[""some_time_zone""]if!value_0.isString{constautoexpected_but_got""Expected a string, but got: ""errors->addstd::stringref.append""/some_time_zone""messageexpected_but_gotstrlenexpected_but_gotvalue_type_to_stringvalue_0.type}else{conststd::stringcast_0value_0.asStringtry{target->some_time_zonedate::locate_zonecast_0}catchconststd::runtime_error&e{constautoexpected_but_got""Expected a valid IANA time zone, but got: ""errors->addstd::stringref.append""/some_time_zone""messageexpected_but_gotstrlenexpected_but_gotcast_0}}}iferrors->full{return}}");
   (s_ "Json::Valueserialize_some_graphconstSomeGraph&some_graph{Json::Valuesome_graph_as_valueifsome_graph.some_time_zone{some_graph_as_value[""some_time_zone""]*some_graph.some_time_zone->name}returnsome_graph_as_value}")]
  [([(s_ "value");
   (s_ "ref");
   (s_ "target");
   (s_ "errors")], [(s_ "cast_0");
   (s_ "e");
   (s_ "errors");
   (s_ "expected_but_got");
   (s_ "message");
   (s_ "ref");
   (s_ "strlen");
   (s_ "target");
   (s_ "value");
   (s_ "value_0");
   (s_ "value_type_to_string")]);
   ([(s_ "some_graph")], [(s_ "some_graph");
   (s_ "some_graph_as_value")])]
  [(s_ "voidsome_graph_fromconstJson::Value&std::stringSomeGraph*parse::Errors*");
   (s_ "Json::Valueserialize_some_graphconstSomeGraph&")]
  [(s_ "SomeGraph{boost::optional<constdate::time_zone*>some_time_zone}")]
  [(s_ "boost/optional.hpp");
   (s_ "date/tz.h")] [(s_ "boost/optional.hpp");
   (s_ "json/json.h")] [(s_ "date/tz.h");
   (s_ "cstring");
   (s_ "memory");
   (s_ "sstream");
   (s_ "stdexcept");
   (s_ "string");
   (s_ "utility")] [(s_ "string");
   (s_ "vector")].

(** test_cases/cpp/datetime_library_date/time/cpp/test_generate *)
Definition cpp_cpp_datetime_library_date_time : cpp_recorded_source :=
  CppSource
  [(s_ "voidsome_graph_fromconstJson::Value&valuestd::stringrefSomeGraph*targetparse::Errors*errors{iferrors==nullptr{throwstd::invalid_argument""Unexpected null errors""}if!errors->empty{throwstd::invalid_argument""Unexpected non-empty errors""}if!value.isObject{constautoexpected_but_got""Expected an object, but got: ""errors->addrefmessageexpected_but_gotstrlenexpected_but_gotvalue_type_to_stringvalue.typereturn}if!value.isMember""some_time""{errors->addref""Property is missing: some_time""}else{constJson::Value&value_0value[""some_time""]if!value_0.isString{constautoexpected_but_got""Expected a string, but got: ""errors->addstd::stringref.append""/some_time""messageexpected_but_gotstrlenexpected_but_gotvalue_type_to_stringvalue_0.type}else{std::chrono::secondsseconds_of_day_0std::istringstreamiss_0value_0.asStringiss_0>>date::parse""%H-%M-%S""seconds_of_day_0ifiss_0.fail{constautoexpected_but_got""Expected to date::parse %H-%M-%S, but got: ""errors->addstd::stringref.append""/some_time""messageexpected_but_gotstrlenexpected_but_gotvalue_0.asString}else{target->some_timedate::make_timeseconds_of_day_0}}}iferrors->full{return}if!value.isMember""formatless_time""{errors->addref""Property is missing: formatless_time""}else{constJson::Value&value_1value[""formatless_time""]if!value_1.isString{constautoexpected_but_got""Expected a string, but got: ""errors->addstd::stringref.append""/formatless_time""messageexpected_but_gotstrlenexpected_but_gotvalue_type_to_stringvalue_1.type}else{std::chrono::secondsseconds_of_day_1std::istringstreamiss_1value_1.asStringiss_1>>date::parse""%H:%M:%S""seconds_of_day_1ifiss_1.fail{constautoexpected_but_got""Expected to date::parse %H:%M:%S, but got: ""errors->addstd::stringref.append""/formatless_time""messageexpected_but_gotstrlenexpected_but_gotvalue_1.asString}else{target->formatless_timedate::make_timeseconds_of_day_1}}}iferrors->full{return}}");
   (s_ "Json::Valueserialize_some_graphconstSomeGraph&some_graph{Json::Valuesome_graph_as_valuesome_graph_as_value[""some_time""]date::format""%H-%M-%S""some_graph.some_time.to_durationsome_graph_as_value[""formatless_time""]date::format""%H:%M:%S""some_graph.formatless_time.to_durationreturnsome_graph_as_value}")]
  [([(s_ "value");
   (s_ "ref");
   (s_ "target");
   (s_ "errors")], [(s_ "errors");
   (s_ "expected_but_got");
   (s_ "iss_0");
   (s_ "iss_1");
   (s_ "message");
   (s_ "ref");
   (s_ "seconds_of_day_0");
   (s_ "seconds_of_day_1");
   (s_ "strlen");
   (s_ "target");
   (s_ "value");
   (s_ "value_0");
   (s_ "value_1");
   (s_ "value_type_to_string")]);
   ([(s_ "some_graph")], [(s_ "some_graph");
   (s_ "some_graph_as_value")])]
  [(s_ "voidsome_graph_fromconstJson::Value&std::stringSomeGraph*parse::Errors*");
   (s_ "Json::Valueserialize_some_graphconstSomeGraph&")]
  [(s_ "SomeGraph{date::time_of_day<std::chrono::seconds>some_timedate::time_of_day<std::chrono::seconds>formatless_time}")]
  [(s_ "date/date.h");
   (s_ "chrono")] [(s_ "json/json.h")] [(s_ "date/date.h");
   (s_ "cstring");
   (s_ "memory");
   (s_ "sstream");
   (s_ "stdexcept");
   (s_ "string");
   (s_ "utility")] [(s_ "string");
   (s_ "vector")].

(** test_cases/cpp/datetime_library_date/timezone/cpp/test_generate *)
Definition cpp_cpp_datetime_library_date_timezone : cpp_recorded_source :=
  CppSource
  [(s_ "voidsome_graph_fromconstJson::Value&valuestd::stringrefSomeGraph*targetparse::Errors*errors{iferrors==nullptr{throwstd::invalid_argument""Unexpected null errors""}if!errors->empty{throwstd::invalid_argument""Unexpected non-empty errors""}if!value.isObject{constautoexpected_but_got""Expected an object, but got: ""errors->addrefmessageexpected_but_gotstrlenexpected_but_gotvalue_type_to_stringvalue.typereturn}if!value.isMember""some_time_zone""{errors->addref""Property is missing: some_time_zone""}else{constJson::Value&value_0value[""some_time_zone""]if!value_0.isString{constautoexpected_but_got""Expected a string, but got: ""errors->addstd::stringref.append""/some_time_zone""messageexpected_but_gotstrlenexpected_but_gotvalue_type_to_stringvalue_0.type}else{conststd::stringcast_0value_0.asStringtry{target->some_time_zonedate::locate_zonecast_0}catchconststd::runtime_error&e{constautoexpected_but_got""Expected a valid IANA time zone, but got: ""errors->addstd::stringref.append""/some_time_zone""messageexpected_but_gotstrlenexpected_but_gotcast_0}}}iferrors->full{return}}");
   (s_ "Json::Valueserialize_some_graphconstSomeGraph&some_graph{Json::Valuesome_graph_as_valuesome_graph_as_value[""some_time_zone""]some_graph.some_time_zone->namereturnsome_graph_as_value}")]
  [([(s_ "value");
   (s_ "ref");
   (s_ "target");
   (s_ "errors")], [(s_ "cast_0");
   (s_ "e");
   (s_ "errors");
   (s_ "expected_but_got");
   (s_ "message");
   (s_ "ref");
   (s_ "strlen");
   (s_ "target");
   (s_ "value");
   (s_ "value_0");
   (s_ "value_type_to_string")]);
   ([(s_ "some_graph")], [(s_ "some_graph");
   (s_ "some_graph_as_value")])]
  [(s_ "voidsome_graph_fromconstJson::Value&std::stringSomeGraph*parse::Errors*");
   (s_ "Json::Valueserialize_some_graphconstSomeGraph&")]
  [(s_ "SomeGraph{constdate::time_zone*some_time_zonenullptr}")]
  [(s_ "date/tz.h")] [(s_ "json/json.h")] [(s_ "date/tz.h");
   (s_ "cstring");
   (s_ "memory");
   (s_ "sstream");
   (s_ "stdexcept");
   (s_ "string");
   (s_ "utility")] [(s_ "string");
   (s_ "vector")].

(** test_cases/cpp/primitive_types/duration/cpp/test_generate *)
Definition cpp_cpp_primitive_types_duration : cpp_recorded_source :=
  CppSource
  [(s_ "voidsome_graph_fromconstJson::Value&valuestd::stringrefSomeGraph*targetparse::Errors*errors{iferrors==nullptr{throwstd::invalid_argument""Unexpected null errors""}if!errors->empty{throwstd::invalid_argument""Unexpected non-empty errors""}if!value.isObject{constautoexpected_but_got""Expected an object, but got: ""errors->addrefmessageexpected_but_gotstrlenexpected_but_gotvalue_type_to_stringvalue.typereturn}if!value.isMember""some_duration""{errors->addref""Property is missing: some_duration""}else{constJson::Value&value_0value[""some_duration""]if!value_0.isString{constautoexpected_but_got""Expected a string, but got: ""errors->addstd::stringref.append""/some_duration""messageexpected_but_gotstrlenexpected_but_gotvalue_type_to_stringvalue_0.type}else{conststd::stringcast_0_strvalue_0.asStringstd::stringerror_0std::chrono::nanosecondscast_0duration_from_stringcast_0_str&error_0if!error_0.empty{constautoinvalid_duration""Invalid duration: ""errors->addstd::stringref.append""/some_duration""messageinvalid_durationstrleninvalid_durationerror_0}else{target->some_durationcast_0}}}iferrors->full{return}}");
   (s_ "Json::Valueserialize_some_graphconstSomeGraph&some_graph{Json::Valuesome_graph_as_valuesome_graph_as_value[""some_duration""]duration_to_stringsome_graph.some_durationreturnsome_graph_as_value}")]
  [([(s_ "value");
   (s_ "ref");
   (s_ "target");
   (s_ "errors")], [(s_ "cast_0");
   (s_ "cast_0_str");
   (s_ "duration_from_string");
   (s_ "error_0");
   (s_ "errors");
   (s_ "expected_but_got");
   (s_ "invalid_duration");
   (s_ "message");
   (s_ "ref");
   (s_ "strlen");
   (s_ "target");
   (s_ "value");
   (s_ "value_0");
   (s_ "value_type_to_string")]);
   ([(s_ "some_graph")], [(s_ "duration_to_string");
   (s_ "some_graph");
   (s_ "some_graph_as_value")])]
  [(s_ "voidsome_graph_fromconstJson::Value&std::stringSomeGraph*parse::Errors*");
   (s_ "Json::Valueserialize_some_graphconstSomeGraph&")]
  [(s_ "SomeGraph{std::chrono::nanosecondssome_duration}")]
  [(s_ "chrono")] [(s_ "json/json.h")] [(s_ "cmath");
   (s_ "cstring");
   (s_ "iomanip");
   (s_ "limits");
   (s_ "memory");
   (s_ "regex");
   (s_ "sstream");
   (s_ "stdexcept");
   (s_ "string");
   (s_ "utility")] [(s_ "string");
   (s_ "vector")].

(** test_cases/cpp/primitive_types/float/cpp/test_generate *)
Definition cpp_cpp_primitive_types_float : cpp_recorded_source :=
  CppSource
  [(s_ "voidsome_graph_fromconstJson::Value&valuestd::stringrefSomeGraph*targetparse::Errors*errors{iferrors==nullptr{throwstd::invalid_argument""Unexpected null errors""}if!errors->empty{throwstd::invalid_argument""Unexpected non-empty errors""}if!value.isObject{constautoexpected_but_got""Expected an object, but got: ""errors->addrefmessageexpected_but_gotstrlenexpected_but_gotvalue_type_to_stringvalue.typereturn}if!value.isMember""some_float""{errors->addref""Property is missing: some_float""}else{constJson::Value&value_0value[""some_float""]if!value_0.isDouble{constautoexpected_but_got""Expected a double, but got: ""errors->addstd::stringref.append""/some_float""messageexpected_but_gotstrlenexpected_but_gotvalue_type_to_stringvalue_0.type}else{target->some_floatvalue_0.asDouble}}iferrors->full{return}}");
   (s_ "Json::Valueserialize_some_graphconstSomeGraph&some_graph{Json::Valuesome_graph_as_valuesome_graph_as_value[""some_float""]some_graph.some_floatreturnsome_graph_as_value}")]
  [([(s_ "value");
   (s_ "ref");
   (s_ "target");
   (s_ "errors")], [(s_ "errors");
   (s_ "expected_but_got");
   (s_ "message");
   (s_ "ref");
   (s_ "strlen");
   (s_ "target");
   (s_ "value");
   (s_ "value_0");
   (s_ "value_type_to_string")]);
   ([(s_ "some_graph")], [(s_ "some_graph");
   (s_ "some_graph_as_value")])]
  [(s_ "voidsome_graph_fromconstJson::Value&std::stringSomeGraph*parse::Errors*");
   (s_ "Json::Valueserialize_some_graphconstSomeGraph&")]
  [(s_ "SomeGraph{doublesome_float0}")]
  [] [(s_ "json/json.h")] [(s_ "cstring");
   (s_ "memory");
   (s_ "sstream");
   (s_ "stdexcept");
   (s_ "string");
   (s_ "utility")] [(s_ "string");
   (s_ "vector")].

(** test_cases/cpp/primitive_types/integer/cpp/test_generate *)
Definition cpp_cpp_primitive_types_integer : cpp_recorded_source :=
  CppSource
  [(s_ "voidsome_graph_fromconstJson::Value&valuestd::stringrefSomeGraph*targetparse::Errors*errors{iferrors==nullptr{throwstd::invalid_argument""Unexpected null errors""}if!errors->empty{throwstd::invalid_argument""Unexpected non-empty errors""}if!value.isObject{constautoexpected_but_got""Expected an object, but got: ""errors->addrefmessageexpected_but_gotstrlenexpected_but_gotvalue_type_to_stringvalue.typereturn}if!value.isMember""some_int""{errors->addref""Property is missing: some_int""}else{constJson::Value&value_0value[""some_int""]if!value_0.isInt64{constautoexpected_but_got""Expected an int64, but got: ""errors->addstd::stringref.append""/some_int""messageexpected_but_gotstrlenexpected_but_gotvalue_type_to_stringvalue_0.type}else{target->some_intvalue_0.asInt64}}iferrors->full{return}}");
   (s_ "Json::Valueserialize_some_graphconstSomeGraph&some_graph{Json::Valuesome_graph_as_valuesome_graph_as_value[""some_int""]some_graph.some_intreturnsome_graph_as_value}")]
  [([(s_ "value");
   (s_ "ref");
   (s_ "target");
   (s_ "errors")], [(s_ "errors");
   (s_ "expected_but_got");
   (s_ "message");
   (s_ "ref");
   (s_ "strlen");
   (s_ "target");
   (s_ "value");
   (s_ "value_0");
   (s_ "value_type_to_string")]);
   ([(s_ "some_graph")], [(s_ "some_graph");
   (s_ "some_graph_as_value")])]
  [(s_ "voidsome_graph_fromconstJson::Value&std::stringSomeGraph*parse::Errors*");
   (s_ "Json::Valueserialize_some_graphconstSomeGraph&")]
  [(s_ "SomeGraph{int64_tsome_int0}")]
  [(s_ "cstdint")] [(s_ "json/json.h")] [(s_ "cstring");
   (s_ "memory");
   (s_ "sstream");
   (s_ "stdexcept");
   (s_ "string");
   (s_ "utility")] [(s_ "string");
   (s_ "vector")].

(** test_cases/docs/schema/introductory_example/cpp/test_generate *)
Definition cpp_docs_schema_introductory_example : cpp_recorded_source :=
  CppSource
  [(s_ "voidpipeline_fromconstJson::Value&valuestd::stringrefPipeline*targetparse::Errors*errors{iferrors==nullptr{throwstd::invalid_argument""Unexpected null errors""}if!errors->empty{throwstd::invalid_argument""Unexpected non-empty errors""}if!value.isObject{constautoexpected_but_got""Expected an object, but got: ""errors->addrefmessageexpected_but_gotstrlenexpected_but_gotvalue_type_to_stringvalue.typereturn}std::stringpersons_refpersons_ref.reserveref.size+8persons_ref+=refpersons_ref+=""/persons""ifvalue.isMember""persons""{constJson::Value&objvalue[""persons""]if!obj.isObject{constautoexpected_but_got""Expected an object, but got: ""errors->addpersons_refmessageexpected_but_gotstrlenexpected_but_gotvalue_type_to_stringobj.type}else{forJson::ValueConstIteratoritobj.beginit!=obj.end++it{autoinstancestd::make_unique<Person>instance->idit.nametarget->persons[it.name]std::moveinstance}}}if!errors->empty{return}std::stringinstance_refinstance_ref.clearinstance_ref+=persons_refinstance_ref+='/'ifvalue.isMember""persons""{constJson::Value&objvalue[""persons""]forJson::ValueConstIteratoritobj.beginit!=obj.end++it{instance_ref.reservepersons_ref.size+1+it.name.sizeinstance_ref.resizepersons_ref.size+1instance_ref.appendit.namePerson*instancetarget->persons.atit.name.getperson_from*itinstance_refinstanceerrorsiferrors->full{break}}}iferrors->full{return}if!value.isMember""maintainer""{errors->addref""Property is missing: maintainer""}else{constJson::Value&value_0value[""maintainer""]if!value_0.isString{constautoexpected_but_got""Expected a string, but got: ""errors->addstd::stringref.append""/maintainer""messageexpected_but_gotstrlenexpected_but_gotvalue_type_to_stringvalue_0.type}else{conststd::string&cast_0value_0.asStringiftarget->persons.countcast_0==0{constautoreference_not_found""Reference to an instance of class Person not found: ""errors->addstd::stringref.append""/maintainer""messagereference_not_foundstrlenreference_not_foundcast_0}else{target->maintainertarget->persons.atcast_0.get}}}iferrors->full{return}}");
   (s_ "voidperson_fromconstJson::Value&valuestd::stringrefPerson*targetparse::Errors*errors{if!value.isObject{constautoexpected_but_got""Expected an object, but got: ""errors->addrefmessageexpected_but_gotstrlenexpected_but_gotvalue_type_to_stringvalue.typereturn}if!value.isMember""full_name""{errors->addref""Property is missing: full_name""}else{constJson::Value&value_0value[""full_name""]if!value_0.isString{constautoexpected_but_got""Expected a string, but got: ""errors->addstd::stringref.append""/full_name""messageexpected_but_gotstrlenexpected_but_gotvalue_type_to_stringvalue_0.type}else{target->full_namevalue_0.asString}}iferrors->full{return}if!value.isMember""birthday""{errors->addref""Property is missing: birthday""}else{constJson::Value&value_1value[""birthday""]if!value_1.isString{constautoexpected_but_got""Expected a string, but got: ""errors->addstd::stringref.append""/birthday""messageexpected_but_gotstrlenexpected_but_gotvalue_type_to_stringvalue_1.type}else{conststd::stringcast_1value_1.asStringstructtmtm_1tm{0}char*ret_1strptimecast_1.c_str""%Y-%m-%d""&tm_1ifret_1==nullptr||*ret_1!='\0'{constautoexpected_but_got""Expected to strptime %Y-%m-%d, but got: ""errors->addstd::stringref.append""/birthday""messageexpected_but_gotstrlenexpected_but_gotcast_1}else{target->birthdaytm_1}}}iferrors->full{return}if!value.isMember""address""{errors->addref""Property is missing: address""}else{constJson::Value&value_2value[""address""]address_fromvalue_2std::stringref.append""/address""&target->addresserrors}iferrors->full{return}}");
   (s_ "voidaddress_fromconstJson::Value&valuestd::stringrefAddress*targetparse::Errors*errors{if!value.isObject{constautoexpected_but_got""Expected an object, but got: ""errors->addrefmessageexpected_but_gotstrlenexpected_but_gotvalue_type_to_stringvalue.typereturn}if!value.isMember""text""{errors->addref""Property is missing: text""}else{constJson::Value&value_0value[""text""]if!value_0.isString{constautoexpected_but_got""Expected a string, but got: ""errors->addstd::stringref.append""/text""messageexpected_but_gotstrlenexpected_but_gotvalue_type_to_stringvalue_0.type}else{target->textvalue_0.asString}}iferrors->full{return}}");
   (s_ "Json::Valueserialize_personconstPerson&person{Json::Valueperson_as_valueperson_as_value[""full_name""]person.full_nameperson_as_value[""birthday""]tm_to_stringperson.birthday""%Y-%m-%d""person_as_value[""address""]serialize_addressperson.addressreturnperson_as_value}");
   (s_ "Json::Valueserialize_addressconstAddress&address{Json::Valueaddress_as_valueaddress_as_value[""text""]address.textreturnaddress_as_value}");
   (s_ "Json::Valueserialize_pipelineconstPipeline&pipeline{Json::Valuepipeline_as_valuepipeline_as_value[""maintainer""]pipeline.maintainer->idif!pipeline.persons.empty{Json::Valuepersons_as_valueforconstauto&kv:pipeline.persons{conststd::string&idkv.firstconstPerson*instancekv.second.getifid!=instance->id{constautoexpected""Expected the class instance of Personto have the ID ""constautobut_got"", but got: ""std::stringmsgmsg.reservestrlenexpected+id.size+strlenbut_got+instance->id.sizemsg+=expectedmsg+=idmsg+=but_gotmsg+=instance->idthrowstd::invalid_argumentmsg}persons_as_value[instance->id]serialize_person*instance}pipeline_as_value[""persons""]persons_as_value}returnpipeline_as_value}")]
  [([(s_ "value");
   (s_ "ref");
   (s_ "target");
   (s_ "errors")], [(s_ "Person");
   (s_ "cast_0");
   (s_ "errors");
   (s_ "expected_but_got");
   (s_ "instance");
   (s_ "instance_ref");
   (s_ "it");
   (s_ "message");
   (s_ "obj");
   (s_ "person_from");
   (s_ "persons_ref");
   (s_ "ref");
   (s_ "reference_not_found");
   (s_ "strlen");
   (s_ "target");
   (s_ "value");
   (s_ "value_0");
   (s_ "value_type_to_string")]);
   ([(s_ "value");
   (s_ "ref");
   (s_ "target");
   (s_ "errors")], [(s_ "address_from");
   (s_ "cast_1");
   (s_ "errors");
   (s_ "expected_but_got");
   (s_ "message");
   (s_ "ref");
   (s_ "ret_1");
   (s_ "strlen");
   (s_ "strptime");
   (s_ "target");
   (s_ "tm");
   (s_ "tm_1");
   (s_ "value");
   (s_ "value_0");
   (s_ "value_1");
   (s_ "value_2");
   (s_ "value_type_to_string")]);
   ([(s_ "value");
   (s_ "ref");
   (s_ "target");
   (s_ "errors")], [(s_ "errors");
   (s_ "expected_but_got");
   (s_ "message");
   (s_ "ref");
   (s_ "strlen");
   (s_ "target");
   (s_ "value");
   (s_ "value_0");
   (s_ "value_type_to_string")]);
   ([(s_ "person")], [(s_ "person");
   (s_ "person_as_value");
   (s_ "serialize_address");
   (s_ "tm_to_string")]);
   ([(s_ "address")], [(s_ "address");
   (s_ "address_as_value")]);
   ([(s_ "pipeline")], [(s_ "Person");
   (s_ "but_got");
   (s_ "expected");
   (s_ "id");
   (s_ "instance");
   (s_ "kv");
   (s_ "msg");
   (s_ "persons_as_value");
   (s_ "pipeline");
   (s_ "pipeline_as_value");
   (s_ "serialize_person");
   (s_ "strlen")])]
  [(s_ "voidpipeline_fromconstJson::Value&std::stringPipeline*parse::Errors*");
   (s_ "voidaddress_fromconstJson::Value&std::stringAddress*parse::Errors*");
   (s_ "voidperson_fromconstJson::Value&std::stringPerson*parse::Errors*");
   (s_ "Json::Valueserialize_pipelineconstPipeline&");
   (s_ "Json::Valueserialize_personconstPerson&");
   (s_ "Json::Valueserialize_addressconstAddress&")]
  [(s_ "Address{std::stringtext}");
   (s_ "Person{std::stringidstd::stringfull_namestructtmbirthdaytm{0}Addressaddress}");
   (s_ "Pipeline{Person*maintainernullptrstd::map<std::stringstd::unique_ptr<Person>>persons}")]
  [(s_ "ctime");
   (s_ "map");
   (s_ "memory");
   (s_ "string")] [(s_ "json/json.h");
   (s_ "map");
   (s_ "string")] [(s_ "cstring");
   (s_ "memory");
   (s_ "sstream");
   (s_ "stdexcept");
   (s_ "string");
   (s_ "utility")] [(s_ "string");
   (s_ "vector")].

(** test_cases/general/array/fails/invalid_types/cpp/test_generate *)
Definition cpp_general_array_fails_invalid_types : cpp_recorded_source :=
  CppSource
  [(s_ "voidsome_graph_fromconstJson::Value&valuestd::stringrefSomeGraph*targetparse::Errors*errors{iferrors==nullptr{throwstd::invalid_argument""Unexpected null errors""}if!errors->empty{throwstd::invalid_argument""Unexpected non-empty errors""}if!value.isObject{constautoexpected_but_got""Expected an object, but got: ""errors->addrefmessageexpected_but_gotstrlenexpected_but_gotvalue_type_to_stringvalue.typereturn}if!value.isMember""array_of_booleans""{errors->addref""Property is missing: array_of_booleans""}else{constJson::Value&value_0value[""array_of_booleans""]if!value_0.isArray{constautoexpected_but_got""Expected an array, but got: ""errors->addstd::stringref.append""/array_of_booleans""messageexpected_but_gotstrlenexpected_but_gotvalue_type_to_stringvalue_0.type}else{std::vector<bool>&target_0target->array_of_booleanstarget_0.resizevalue_0.sizesize_ti_00forconstJson::Value&item_0:value_0{if!item_0.isBool{constautoexpected_but_got""Expected a bool, but got: ""errors->addstd::stringref.append""/array_of_booleans"".append""/"".appendstd::to_stringi_0messageexpected_but_gotstrlenexpected_but_gotvalue_type_to_stringitem_0.type}else{target_0.ati_0item_0.asBool}++i_0iferrors->full{break}}}}iferrors->full{return}}");
   (s_ "Json::Valueserialize_some_graphconstSomeGraph&some_graph{Json::Valuesome_graph_as_valueJson::Valuetarget_0Json::arrayValueconstauto&vector_0some_graph.array_of_booleansforinti_00i_0<vector_0.size++i_0{target_0[i_0]vector_0[i_0]}some_graph_as_value[""array_of_booleans""]std::movetarget_0returnsome_graph_as_value}")]
  [([(s_ "value");
   (s_ "ref");
   (s_ "target");
   (s_ "errors")], [(s_ "errors");
   (s_ "expected_but_got");
   (s_ "i_0");
   (s_ "item_0");
   (s_ "message");
   (s_ "ref");
   (s_ "size_t");
   (s_ "strlen");
   (s_ "target");
   (s_ "target_0");
   (s_ "value");
   (s_ "value_0");
   (s_ "value_type_to_string")]);
   ([(s_ "some_graph")], [(s_ "i_0");
   (s_ "some_graph");
   (s_ "some_graph_as_value");
   (s_ "target_0");
   (s_ "vector_0")])]
  [(s_ "voidsome_graph_fromconstJson::Value&std::stringSomeGraph*parse::Errors*");
   (s_ "Json::Valueserialize_some_graphconstSomeGraph&")]
  [(s_ "SomeGraph{std::vector<bool>array_of_booleans}")]
  [(s_ "vector")] [(s_ "json/json.h")] [(s_ "cstring");
   (s_ "memory");
   (s_ "sstream");
   (s_ "stdexcept");
   (s_ "string");
   (s_ "utility")] [(s_ "string");
   (s_ "vector")].

(** test_cases/general/array/maximum_size/cpp/test_generate *)
Definition cpp_general_array_maximum_size : cpp_recorded_source :=
  CppSource
  [(s_ "voidsome_graph_fromconstJson::Value&valuestd::stringrefSomeGraph*targetparse::Errors*errors{iferrors==nullptr{throwstd::invalid_argument""Unexpected null errors""}if!errors->empty{throwstd::invalid_argument""Unexpected non-empty errors""}if!value.isObject{constautoexpected_but_got""Expected an object, but got: ""errors->addrefmessageexpected_but_gotstrlenexpected_but_gotvalue_type_to_stringvalue.typereturn}if!value.isMember""array_of_booleans""{errors->addref""Property is missing: array_of_booleans""}else{constJson::Value&value_0value[""array_of_booleans""]if!value_0.isArray{constautoexpected_but_got""Expected an array, but got: ""errors->addstd::stringref.append""/array_of_booleans""messageexpected_but_gotstrlenexpected_but_gotvalue_type_to_stringvalue_0.type}else{ifvalue_0.size>1{constautoexpected_but_got""Expected an array of maximum size 1, but got: ""errors->addstd::stringref.append""/array_of_booleans""messageexpected_but_gotstrlenexpected_but_gotstd::to_stringvalue_0.size}else{std::vector<bool>&target_0target->array_of_booleanstarget_0.resizevalue_0.sizesize_ti_00forconstJson::Value&item_0:value_0{if!item_0.isBool{constautoexpected_but_got""Expected a bool, but got: ""errors->addstd::stringref.append""/array_of_booleans"".append""/"".appendstd::to_stringi_0messageexpected_but_gotstrlenexpected_but_gotvalue_type_to_stringitem_0.type}else{target_0.ati_0item_0.asBool}++i_0iferrors->full{break}}}}}iferrors->full{return}}");
   (s_ "Json::Valueserialize_some_graphconstSomeGraph&some_graph{Json::Valuesome_graph_as_valueJson::Valuetarget_0Json::arrayValueconstauto&vector_0some_graph.array_of_booleansforinti_00i_0<vector_0.size++i_0{target_0[i_0]vector_0[i_0]}some_graph_as_value[""array_of_booleans""]std::movetarget_0returnsome_graph_as_value}")]
  [([(s_ "value");
   (s_ "ref");
   (s_ "target");
   (s_ "errors")], [(s_ "errors");
   (s_ "expected_but_got");
   (s_ "i_0");
   (s_ "item_0");
   (s_ "message");
   (s_ "ref");
   (s_ "size_t");
   (s_ "strlen");
   (s_ "target");
   (s_ "target_0");
   (s_ "value");
   (s_ "value_0");
   (s_ "value_type_to_string")]);
   ([(s_ "some_graph")], [(s_ "i_0");
   (s_ "some_graph");
   (s_ "some_graph_as_value");
   (s_ "target_0");
   (s_ "vector_0")])]
  [(s_ "voidsome_graph_fromconstJson::Value&std::stringSomeGraph*parse::Errors*");
   (s_ "Json::Valueserialize_some_graphconstSomeGraph&")]
  [(s_ "SomeGraph{std::vector<bool>array_of_booleans}")]
  [(s_ "vector")] [(s_ "json/json.h")] [(s_ "cstring");
   (s_ "memory");
   (s_ "sstream");
   (s_ "stdexcept");
   (s_ "string");
   (s_ "utility")] [(s_ "string");
   (s_ "vector")].

(** test_cases/general/array/minimum_size/cpp/test_generate *)
Definition cpp_general_array_minimum_size : cpp_recorded_source :=
  CppSource
  [(s_ "voidsome_graph_fromconstJson::Value&valuestd::stringrefSomeGraph*targetparse::Errors*errors{iferrors==nullptr{throwstd::invalid_argument""Unexpected null errors""}if!errors->empty{throwstd::invalid_argument""Unexpected non-empty errors""}if!value.isObject{constautoexpected_but_got""Expected an object, but got: ""errors->addrefmessageexpected_but_gotstrlenexpected_but_gotvalue_type_to_stringvalue.typereturn}if!value.isMember""array_of_booleans""{errors->addref""Property is missing: array_of_booleans""}else{constJson::Value&value_0value[""array_of_booleans""]if!value_0.isArray{constautoexpected_but_got""Expected an array, but got: ""errors->addstd::stringref.append""/array_of_booleans""messageexpected_but_gotstrlenexpected_but_gotvalue_type_to_stringvalue_0.type}else{ifvalue_0.size<1{constautoexpected_but_got""Expected an array of minimum size 1, but got: ""errors->addstd::stringref.append""/array_of_booleans""messageexpected_but_gotstrlenexpected_but_gotstd::to_stringvalue_0.size}else{std::vector<bool>&target_0target->array_of_booleanstarget_0.resizevalue_0.sizesize_ti_00forconstJson::Value&item_0:value_0{if!item_0.isBool{constautoexpected_but_got""Expected a bool, but got: ""errors->addstd::stringref.append""/array_of_booleans"".append""/"".appendstd::to_stringi_0messageexpected_but_gotstrlenexpected_but_gotvalue_type_to_stringitem_0.type}else{target_0.ati_0item_0.asBool}++i_0iferrors->full{break}}}}}iferrors->full{return}}");
   (s_ "Json::Valueserialize_some_graphconstSomeGraph&some_graph{Json::Valuesome_graph_as_valueJson::Valuetarget_0Json::arrayValueconstauto&vector_0some_graph.array_of_booleansforinti_00i_0<vector_0.size++i_0{target_0[i_0]vector_0[i_0]}some_graph_as_value[""array_of_booleans""]std::movetarget_0returnsome_graph_as_value}")]
  [([(s_ "value");
   (s_ "ref");
   (s_ "target");
   (s_ "errors")], [(s_ "errors");
   (s_ "expected_but_got");
   (s_ "i_0");
   (s_ "item_0");
   (s_ "message");
   (s_ "ref");
   (s_ "size_t");
   (s_ "strlen");
   (s_ "target");
   (s_ "target_0");
   (s_ "value");
   (s_ "value_0");
   (s_ "value_type_to_string")]);
   ([(s_ "some_graph")], [(s_ "i_0");
   (s_ "some_graph");
   (s_ "some_graph_as_value");
   (s_ "target_0");
   (s_ "vector_0")])]
  [(s_ "voidsome_graph_fromconstJson::Value&std::stringSomeGraph*parse::Errors*");
   (s_ "Json::Valueserialize_some_graphconstSomeGraph&")]
  [(s_ "SomeGraph{std::vector<bool>array_of_booleans}")]
  [(s_ "vector")] [(s_ "json/json.h")] [(s_ "cstring");
   (s_ "memory");
   (s_ "sstream");
   (s_ "stdexcept");
   (s_ "string");
   (s_ "utility")] [(s_ "string");
   (s_ "vector")].

(** test_cases/general/array/of/array/cpp/test_generate *)
Definition cpp_general_array_of_array : cpp_recorded_source :=
  CppSource
  [(s_ "voidsome_graph_fromconstJson::Value&valuestd::stringrefSomeGraph*targetparse::Errors*errors{iferrors==nullptr{throwstd::invalid_argument""Unexpected null errors""}if!errors->empty{throwstd::invalid_argument""Unexpected non-empty errors""}if!value.isObject{constautoexpected_but_got""Expected an object, but got: ""errors->addrefmessageexpected_but_gotstrlenexpected_but_gotvalue_type_to_stringvalue.typereturn}if!value.isMember""array_of_arrays""{errors->addref""Property is missing: array_of_arrays""}else{constJson::Value&value_0value[""array_of_arrays""]if!value_0.isArray{constautoexpected_but_got""Expected an array, but got: ""errors->addstd::stringref.append""/array_of_arrays""messageexpected_but_gotstrlenexpected_but_gotvalue_type_to_stringvalue_0.type}else{std::vector<std::vector<bool>>&target_0target->array_of_arraystarget_0.resizevalue_0.sizesize_ti_00forconstJson::Value&item_0:value_0{if!item_0.isArray{constautoexpected_but_got""Expected an array, but got: ""errors->addstd::stringref.append""/array_of_arrays"".append""/"".appendstd::to_stringi_0messageexpected_but_gotstrlenexpected_but_gotvalue_type_to_stringitem_0.type}else{std::vector<bool>&target_1target_0.ati_0target_1.resizeitem_0.sizesize_ti_10forconstJson::Value&item_1:item_0{if!item_1.isBool{constautoexpected_but_got""Expected a bool, but got: ""errors->addstd::stringref.append""/array_of_arrays"".append""/"".appendstd::to_stringi_0.append""/"".appendstd::to_stringi_1messageexpected_but_gotstrlenexpected_but_gotvalue_type_to_stringitem_1.type}else{target_1.ati_1item_1.asBool}++i_1iferrors->full{break}}}++i_0iferrors->full{break}}}}iferrors->full{return}}");
   (s_ "Json::Valueserialize_some_graphconstSomeGraph&some_graph{Json::Valuesome_graph_as_valueJson::Valuetarget_0Json::arrayValueconstauto&vector_0some_graph.array_of_arraysforinti_00i_0<vector_0.size++i_0{Json::Valuetarget_1Json::arrayValueconstauto&vector_1vector_0[i_0]forinti_10i_1<vector_1.size++i_1{target_1[i_1]vector_1[i_1]}target_0[i_0]std::movetarget_1}some_graph_as_value[""array_of_arrays""]std::movetarget_0returnsome_graph_as_value}")]
  [([(s_ "value");
   (s_ "ref");
   (s_ "target");
   (s_ "errors")], [(s_ "errors");
   (s_ "expected_but_got");
   (s_ "i_0");
   (s_ "i_1");
   (s_ "item_0");
   (s_ "item_1");
   (s_ "message");
   (s_ "ref");
   (s_ "size_t");
   (s_ "strlen");
   (s_ "target");
   (s_ "target_0");
   (s_ "target_1");
   (s_ "value");
   (s_ "value_0");
   (s_ "value_type_to_string")]);
   ([(s_ "some_graph")], [(s_ "i_0");
   (s_ "i_1");
   (s_ "some_graph");
   (s_ "some_graph_as_value");
   (s_ "target_0");
   (s_ "target_1");
   (s_ "vector_0");
   (s_ "vector_1")])]
  [(s_ "voidsome_graph_fromconstJson::Value&std::stringSomeGraph*parse::Errors*");
   (s_ "Json::Valueserialize_some_graphconstSomeGraph&")]
  [(s_ "SomeGraph{std::vector<std::vector<bool>>array_of_arrays}")]
  [(s_ "vector")] [(s_ "json/json.h")] [(s_ "cstring");
   (s_ "memory");
   (s_ "sstream");
   (s_ "stdexcept");
   (s_ "string");
   (s_ "utility")] [(s_ "string");
   (s_ "vector")].

(** test_cases/general/array/of/boolean/cpp/test_generate *)
Definition cpp_general_array_of_boolean : cpp_recorded_source :=
  CppSource
  [(s_ "voidsome_graph_fromconstJson::Value&valuestd::stringrefSomeGraph*targetparse::Errors*errors{iferrors==nullptr{throwstd::invalid_argument""Unexpected null errors""}if!errors->empty{throwstd::invalid_argument""Unexpected non-empty errors""}if!value.isObject{constautoexpected_but_got""Expected an object, but got: ""errors->addrefmessageexpected_but_gotstrlenexpected_but_gotvalue_type_to_stringvalue.typereturn}if!value.isMember""array_of_booleans""{errors->addref""Property is missing: array_of_booleans""}else{constJson::Value&value_0value[""array_of_booleans""]if!value_0.isArray{constautoexpected_but_got""Expected an array, but got: ""errors->addstd::stringref.append""/array_of_booleans""messageexpected_but_gotstrlenexpected_but_gotvalue_type_to_stringvalue_0.type}else{std::vector<bool>&target_0target->array_of_booleanstarget_0.resizevalue_0.sizesize_ti_00forconstJson::Value&item_0:value_0{if!item_0.isBool{constautoexpected_but_got""Expected a bool, but got: ""errors->addstd::stringref.append""/array_of_booleans"".append""/"".appendstd::to_stringi_0messageexpected_but_gotstrlenexpected_but_gotvalue_type_to_stringitem_0.type}else{target_0.ati_0item_0.asBool}++i_0iferrors->full{break}}}}iferrors->full{return}}");
   (s_ "Json::Valueserialize_some_graphconstSomeGraph&some_graph{Json::Valuesome_graph_as_valueJson::Valuetarget_0Json::arrayValueconstauto&vector_0some_graph.array_of_booleansforinti_00i_0<vector_0.size++i_0{target_0[i_0]vector_0[i_0]}some_graph_as_value[""array_of_booleans""]std::movetarget_0returnsome_graph_as_value}")]
  [([(s_ "value");
   (s_ "ref");
   (s_ "target");
   (s_ "errors")], [(s_ "errors");
   (s_ "expected_but_got");
   (s_ "i_0");
   (s_ "item_0");
   (s_ "message");
   (s_ "ref");
   (s_ "size_t");
   (s_ "strlen");
   (s_ "target");
   (s_ "target_0");
   (s_ "value");
   (s_ "value_0");
   (s_ "value_type_to_string")]);
   ([(s_ "some_graph")], [(s_ "i_0");
   (s_ "some_graph");
   (s_ "some_graph_as_value");
   (s_ "target_0");
   (s_ "vector_0")])]
  [(s_ "voidsome_graph_fromconstJson::Value&std::stringSomeGraph*parse::Errors*");
   (s_ "Json::Valueserialize_some_graphconstSomeGraph&")]
  [(s_ "SomeGraph{std::vector<bool>array_of_booleans}")]
  [(s_ "vector")] [(s_ "json/json.h")] [(s_ "cstring");
   (s_ "memory");
   (s_ "sstream");
   (s_ "stdexcept");
   (s_ "string");
   (s_ "utility")] [(s_ "string");
   (s_ "vector")].

(** test_cases/general/array/of/class_ref/cpp/test_generate *)
Definition cpp_general_array_of_class_ref : cpp_recorded_source :=
  CppSource
  [(s_ "voidsome_graph_fromconstJson::Value&valuestd::stringrefSomeGraph*targetparse::Errors*errors{iferrors==nullptr{throwstd::invalid_argument""Unexpected null errors""}if!errors->empty{throwstd::invalid_argument""Unexpected non-empty errors""}if!value.isObject{constautoexpected_but_got""Expected an object, but got: ""errors->addrefmessageexpected_but_gotstrlenexpected_but_gotvalue_type_to_stringvalue.typereturn}std::stringempties_refempties_ref.reserveref.size+8empties_ref+=refempties_ref+=""/empties""ifvalue.isMember""empties""{constJson::Value&objvalue[""empties""]if!obj.isObject{constautoexpected_but_got""Expected an object, but got: ""errors->addempties_refmessageexpected_but_gotstrlenexpected_but_gotvalue_type_to_stringobj.type}else{forJson::ValueConstIteratoritobj.beginit!=obj.end++it{autoinstancestd::make_unique<Empty>instance->idit.nametarget->empties[it.name]std::moveinstance}}}if!errors->empty{return}std::stringinstance_refinstance_ref.clearinstance_ref+=empties_refinstance_ref+='/'ifvalue.isMember""empties""{constJson::Value&objvalue[""empties""]forJson::ValueConstIteratoritobj.beginit!=obj.end++it{instance_ref.reserveempties_ref.size+1+it.name.sizeinstance_ref.resizeempties_ref.size+1instance_ref.appendit.nameEmpty*instancetarget->empties.atit.name.getempty_from*itinstance_refinstanceerrorsiferrors->full{break}}}iferrors->full{return}if!value.isMember""array_of_class_refs""{errors->addref""Property is missing: array_of_class_refs""}else{constJson::Value&value_0value[""array_of_class_refs""]if!value_0.isArray{constautoexpected_but_got""Expected an array, but got: ""errors->addstd::stringref.append""/array_of_class_refs""messageexpected_but_gotstrlenexpected_but_gotvalue_type_to_stringvalue_0.type}else{std::vector<Empty*>&target_0target->array_of_class_refstarget_0.resizevalue_0.sizesize_ti_00forconstJson::Value&item_0:value_0{if!item_0.isString{constautoexpected_but_got""Expected a string, but got: ""errors->addstd::stringref.append""/array_of_class_refs"".append""/"".appendstd::to_stringi_0messageexpected_but_gotstrlenexpected_but_gotvalue_type_to_stringitem_0.type}else{conststd::string&cast_1item_0.asStringiftarget->empties.countcast_1==0{constautoreference_not_found""Reference to an instance of class Empty not found: ""errors->addstd::stringref.append""/array_of_class_refs"".append""/"".appendstd::to_stringi_0messagereference_not_foundstrlenreference_not_foundcast_1}else{target_0.ati_0target->empties.atcast_1.get}}++i_0iferrors->full{break}}}}iferrors->full{return}}");
   (s_ "voidempty_fromconstJson::Value&valuestd::stringrefEmpty*targetparse::Errors*errors{if!value.isObject{constautoexpected_but_got""Expected an object, but got: ""errors->addrefmessageexpected_but_gotstrlenexpected_but_gotvalue_type_to_stringvalue.typereturn}}");
   (s_ "Json::Valueserialize_emptyconstEmpty&empty{returnJson::objectValue}");
   (s_ "Json::Valueserialize_some_graphconstSomeGraph&some_graph{Json::Valuesome_graph_as_valueJson::Valuetarget_0Json::arrayValueconstauto&vector_0some_graph.array_of_class_refsforinti_00i_0<vector_0.size++i_0{target_0[i_0]vector_0[i_0]->id}some_graph_as_value[""array_of_class_refs""]std::movetarget_0if!some_graph.empties.empty{Json::Valueempties_as_valueforconstauto&kv:some_graph.empties{conststd::string&idkv.firstconstEmpty*instancekv.second.getifid!=instance->id{constautoexpected""Expected the class instance of Emptyto have the ID ""constautobut_got"", but got: ""std::stringmsgmsg.reservestrlenexpected+id.size+strlenbut_got+instance->id.sizemsg+=expectedmsg+=idmsg+=but_gotmsg+=instance->idthrowstd::invalid_argumentmsg}empties_as_value[instance->id]serialize_empty*instance}some_graph_as_value[""empties""]empties_as_value}returnsome_graph_as_value}")]
  [([(s_ "value");
   (s_ "ref");
   (s_ "target");
   (s_ "errors")], [(s_ "Empty");
   (s_ "cast_1");
   (s_ "empties_ref");
   (s_ "empty_from");
   (s_ "errors");
   (s_ "expected_but_got");
   (s_ "i_0");
   (s_ "instance");
   (s_ "instance_ref");
   (s_ "it");
   (s_ "item_0");
   (s_ "message");
   (s_ "obj");
   (s_ "ref");
   (s_ "reference_not_found");
   (s_ "size_t");
   (s_ "strlen");
   (s_ "target");
   (s_ "target_0");
   (s_ "value");
   (s_ "value_0");
   (s_ "value_type_to_string")]);
   ([(s_ "value");
   (s_ "ref");
   (s_ "target");
   (s_ "errors")], [(s_ "errors");
   (s_ "expected_but_got");
   (s_ "message");
   (s_ "ref");
   (s_ "strlen");
   (s_ "value");
   (s_ "value_type_to_string")]);
   ([(s_ "empty")], []);
   ([(s_ "some_graph")], [(s_ "Empty");
   (s_ "but_got");
   (s_ "empties_as_value");
   (s_ "expected");
   (s_ "i_0");
   (s_ "id");
   (s_ "instance");
   (s_ "kv");
   (s_ "msg");
   (s_ "serialize_empty");
   (s_ "some_graph");
   (s_ "some_graph_as_value");
   (s_ "strlen");
   (s_ "target_0");
   (s_ "vector_0")])]
  [(s_ "voidsome_graph_fromconstJson::Value&std::stringSomeGraph*parse::Errors*");
   (s_ "voidempty_fromconstJson::Value&std::stringEmpty*parse::Errors*");
   (s_ "Json::Valueserialize_some_graphconstSomeGraph&");
   (s_ "Json::Valueserialize_emptyconstEmpty&")]
  [(s_ "Empty{std::stringid}");
   (s_ "SomeGraph{std::vector<Empty*>array_of_class_refsstd::map<std::stringstd::unique_ptr<Empty>>empties}")]
  [(s_ "map");
   (s_ "memory");
   (s_ "string");
   (s_ "vector")] [(s_ "json/json.h");
   (s_ "map");
   (s_ "string")] [(s_ "cstring");
   (s_ "memory");
   (s_ "sstream");
   (s_ "stdexcept");
   (s_ "string");
   (s_ "utility")] [(s_ "string");
   (s_ "vector")].

(** test_cases/general/array/of/date/cpp/test_generate *)
Definition cpp_general_array_of_date : cpp_recorded_source :=
  CppSource
  [(s_ "voidsome_graph_fromconstJson::Value&valuestd::stringrefSomeGraph*targetparse::Errors*errors{iferrors==nullptr{throwstd::invalid_argument""Unexpected null errors""}if!errors->empty{throwstd::invalid_argument""Unexpected non-empty errors""}if!value.isObject{constautoexpected_but_got""Expected an object, but got: ""errors->addrefmessageexpected_but_gotstrlenexpected_but_gotvalue_type_to_stringvalue.typereturn}if!value.isMember""array_of_dates""{errors->addref""Property is missing: array_of_dates""}else{constJson::Value&value_0value[""array_of_dates""]if!value_0.isArray{constautoexpected_but_got""Expected an array, but got: ""errors->addstd::stringref.append""/array_of_dates""messageexpected_but_gotstrlenexpected_but_gotvalue_type_to_stringvalue_0.type}else{std::vector<structtm>&target_0target->array_of_datestarget_0.resizevalue_0.sizesize_ti_00forconstJson::Value&item_0:value_0{if!item_0.isString{constautoexpected_but_got""Expected a string, but got: ""errors->addstd::stringref.append""/array_of_dates"".append""/"".appendstd::to_stringi_0messageexpected_but_gotstrlenexpected_but_gotvalue_type_to_stringitem_0.type}else{conststd::stringcast_1item_0.asStringstructtmtm_1tm{0}char*ret_1strptimecast_1.c_str""%Y-%m-%d""&tm_1ifret_1==nullptr||*ret_1!='\0'{constautoexpected_but_got""Expected to strptime %Y-%m-%d, but got: ""errors->addstd::stringref.append""/array_of_dates"".append""/"".appendstd::to_stringi_0messageexpected_but_gotstrlenexpected_but_gotcast_1}else{target_0.ati_0tm_1}}++i_0iferrors->full{break}}}}iferrors->full{return}}");
   (s_ "Json::Valueserialize_some_graphconstSomeGraph&some_graph{Json::Valuesome_graph_as_valueJson::Valuetarget_0Json::arrayValueconstauto&vector_0some_graph.array_of_datesforinti_00i_0<vector_0.size++i_0{target_0[i_0]tm_to_stringvector_0[i_0]""%Y-%m-%d""}some_graph_as_value[""array_of_dates""]std::movetarget_0returnsome_graph_as_value}")]
  [([(s_ "value");
   (s_ "ref");
   (s_ "target");
   (s_ "errors")], [(s_ "cast_1");
   (s_ "errors");
   (s_ "expected_but_got");
   (s_ "i_0");
   (s_ "item_0");
   (s_ "message");
   (s_ "ref");
   (s_ "ret_1");
   (s_ "size_t");
   (s_ "strlen");
   (s_ "strptime");
   (s_ "target");
   (s_ "target_0");
   (s_ "tm");
   (s_ "tm_1");
   (s_ "value");
   (s_ "value_0");
   (s_ "value_type_to_string")]);
   ([(s_ "some_graph")], [(s_ "i_0");
   (s_ "some_graph");
   (s_ "some_graph_as_value");
   (s_ "target_0");
   (s_ "tm_to_string");
   (s_ "vector_0")])]
  [(s_ "voidsome_graph_fromconstJson::Value&std::stringSomeGraph*parse::Errors*");
   (s_ "Json::Valueserialize_some_graphconstSomeGraph&")]
  [(s_ "SomeGraph{std::vector<structtm>array_of_dates}")]
  [(s_ "ctime");
   (s_ "vector")] [(s_ "json/json.h")] [(s_ "cstring");
   (s_ "memory");
   (s_ "sstream");
   (s_ "stdexcept");
   (s_ "string");
   (s_ "utility")] [(s_ "string");
   (s_ "vector")].

(** test_cases/general/array/of/datetime/cpp/test_generate *)
Definition cpp_general_array_of_datetime : cpp_recorded_source :=
  CppSource
  [(s_ "voidsome_graph_fromconstJson::Value&valuestd::stringrefSomeGraph*targetparse::Errors*errors{iferrors==nullptr{throwstd::invalid_argument""Unexpected null errors""}if!errors->empty{throwstd::invalid_argument""Unexpected non-empty errors""}if!value.isObject{constautoexpected_but_got""Expected an object, but got: ""errors->addrefmessageexpected_but_gotstrlenexpected_but_gotvalue_type_to_stringvalue.typereturn}if!value.isMember""array_of_datetimes""{errors->addref""Property is missing: array_of_datetimes""}else{constJson::Value&value_0value[""array_of_datetimes""]if!value_0.isArray{constautoexpected_but_got""Expected an array, but got: ""errors->addstd::stringref.append""/array_of_datetimes""messageexpected_but_gotstrlenexpected_but_gotvalue_type_to_stringvalue_0.type}else{std::vector<structtm>&target_0target->array_of_datetimestarget_0.resizevalue_0.sizesize_ti_00forconstJson::Value&item_0:value_0{if!item_0.isString{constautoexpected_but_got""Expected a string, but got: ""errors->addstd::stringref.append""/array_of_datetimes"".append""/"".appendstd::to_stringi_0messageexpected_but_gotstrlenexpected_but_gotvalue_type_to_stringitem_0.type}else{conststd::stringcast_1item_0.asStringstructtmtm_1tm{0}char*ret_1strptimecast_1.c_str""%Y-%m-%dT%H:%M:%SZ""&tm_1ifret_1==nullptr||*ret_1!='\0'{constautoexpected_but_got""Expected to strptime %Y-%m-%dT%H:%M:%SZ, but got: ""errors->addstd::stringref.append""/array_of_datetimes"".append""/"".appendstd::to_stringi_0messageexpected_but_gotstrlenexpected_but_gotcast_1}else{target_0.ati_0tm_1}}++i_0iferrors->full{break}}}}iferrors->full{return}}");
   (s_ "Json::Valueserialize_some_graphconstSomeGraph&some_graph{Json::Valuesome_graph_as_valueJson::Valuetarget_0Json::arrayValueconstauto&vector_0some_graph.array_of_datetimesforinti_00i_0<vector_0.size++i_0{target_0[i_0]tm_to_stringvector_0[i_0]""%Y-%m-%dT%H:%M:%SZ""}some_graph_as_value[""array_of_datetimes""]std::movetarget_0returnsome_graph_as_value}")]
  [([(s_ "value");
   (s_ "ref");
   (s_ "target");
   (s_ "errors")], [(s_ "cast_1");
   (s_ "errors");
   (s_ "expected_but_got");
   (s_ "i_0");
   (s_ "item_0");
   (s_ "message");
   (s_ "ref");
   (s_ "ret_1");
   (s_ "size_t");
   (s_ "strlen");
   (s_ "strptime");
   (s_ "target");
   (s_ "target_0");
   (s_ "tm");
   (s_ "tm_1");
   (s_ "value");
   (s_ "value_0");
   (s_ "value_type_to_string")]);
   ([(s_ "some_graph")], [(s_ "i_0");
   (s_ "some_graph");
   (s_ "some_graph_as_value");
   (s_ "target_0");
   (s_ "tm_to_string");
   (s_ "vector_0")])]
  [(s_ "voidsome_graph_fromconstJson::Value&std::stringSomeGraph*parse::Errors*");
   (s_ "Json::Valueserialize_some_graphconstSomeGraph&")]
  [(s_ "SomeGraph{std::vector<structtm>array_of_datetimes}")]
  [(s_ "ctime");
   (s_ "vector")] [(s_ "json/json.h")] [(s_ "cstring");
   (s_ "memory");
   (s_ "sstream");
   (s_ "stdexcept");
   (s_ "string");
   (s_ "utility")] [(s_ "string");
   (s_ "vector")].

(** test_cases/general/array/of/duration/cpp/test_generate *)
Definition cpp_general_array_of_duration : cpp_recorded_source :=
  CppSource
  [(s_ "voidsome_graph_fromconstJson::Value&valuestd::stringrefSomeGraph*targetparse::Errors*errors{iferrors==nullptr{throwstd::invalid_argument""Unexpected null errors""}if!errors->empty{throwstd::invalid_argument""Unexpected non-empty errors""}if!value.isObject{constautoexpected_but_got""Expected an object, but got: ""errors->addrefmessageexpected_but_gotstrlenexpected_but_gotvalue_type_to_stringvalue.typereturn}if!value.isMember""array_of_durations""{errors->addref""Property is missing: array_of_durations""}else{constJson::Value&value_0value[""array_of_durations""]if!value_0.isArray{constautoexpected_but_got""Expected an array, but got: ""errors->addstd::stringref.append""/array_of_durations""messageexpected_but_gotstrlenexpected_but_gotvalue_type_to_stringvalue_0.type}else{std::vector<std::chrono::nanoseconds>&target_0target->array_of_durationstarget_0.resizevalue_0.sizesize_ti_00forconstJson::Value&item_0:value_0{if!item_0.isString{constautoexpected_but_got""Expected a string, but got: ""errors->addstd::stringref.append""/array_of_durations"".append""/"".appendstd::to_stringi_0messageexpected_but_gotstrlenexpected_but_gotvalue_type_to_stringitem_0.type}else{conststd::stringcast_1_stritem_0.asStringstd::stringerror_1std::chrono::nanosecondscast_1duration_from_stringcast_1_str&error_1if!error_1.empty{constautoinvalid_duration""Invalid duration: ""errors->addstd::stringref.append""/array_of_durations"".append""/"".appendstd::to_stringi_0messageinvalid_durationstrleninvalid_durationerror_1}else{target_0.ati_0cast_1}}++i_0iferrors->full{break}}}}iferrors->full{return}}");
   (s_ "Json::Valueserialize_some_graphconstSomeGraph&some_graph{Json::Valuesome_graph_as_valueJson::Valuetarget_0Json::arrayValueconstauto&vector_0some_graph.array_of_durationsforinti_00i_0<vector_0.size++i_0{target_0[i_0]duration_to_stringvector_0[i_0]}some_graph_as_value[""array_of_durations""]std::movetarget_0returnsome_graph_as_value}")]
  [([(s_ "value");
   (s_ "ref");
   (s_ "target");
   (s_ "errors")], [(s_ "cast_1");
   (s_ "cast_1_str");
   (s_ "duration_from_string");
   (s_ "error_1");
   (s_ "errors");
   (s_ "expected_but_got");
   (s_ "i_0");
   (s_ "invalid_duration");
   (s_ "item_0");
   (s_ "message");
   (s_ "ref");
   (s_ "size_t");
   (s_ "strlen");
   (s_ "target");
   (s_ "target_0");
   (s_ "value");
   (s_ "value_0");
   (s_ "value_type_to_string")]);
   ([(s_ "some_graph")], [(s_ "duration_to_string");
   (s_ "i_0");
   (s_ "some_graph");
   (s_ "some_graph_as_value");
   (s_ "target_0");
   (s_ "vector_0")])]
  [(s_ "voidsome_graph_fromconstJson::Value&std::stringSomeGraph*parse::Errors*");
   (s_ "Json::Valueserialize_some_graphconstSomeGraph&")]
  [(s_ "SomeGraph{std::vector<std::chrono::nanoseconds>array_of_durations}")]
  [(s_ "chrono");
   (s_ "vector")] [(s_ "json/json.h")] [(s_ "cmath");
   (s_ "cstring");
   (s_ "iomanip");
   (s_ "limits");
   (s_ "memory");
   (s_ "regex");
   (s_ "sstream");
   (s_ "stdexcept");
   (s_ "string");
   (s_ "utility")] [(s_ "string");
   (s_ "vector")].

(** test_cases/general/array/of/embed/cpp/test_generate *)
Definition cpp_general_array_of_embed : cpp_recorded_source :=
  CppSource
  [(s_ "voidsome_graph_fromconstJson::Value&valuestd::stringrefSomeGraph*targetparse::Errors*errors{iferrors==nullptr{throwstd::invalid_argument""Unexpected null errors""}if!errors->empty{throwstd::invalid_argument""Unexpected non-empty errors""}if!value.isObject{constautoexpected_but_got""Expected an object, but got: ""errors->addrefmessageexpected_but_gotstrlenexpected_but_gotvalue_type_to_stringvalue.typereturn}if!value.isMember""array_of_embeds""{errors->addref""Property is missing: array_of_embeds""}else{constJson::Value&value_0value[""array_of_embeds""]if!value_0.isArray{constautoexpected_but_got""Expected an array, but got: ""errors->addstd::stringref.append""/array_of_embeds""messageexpected_but_gotstrlenexpected_but_gotvalue_type_to_stringvalue_0.type}else{std::vector<Empty>&target_0target->array_of_embedstarget_0.resizevalue_0.sizesize_ti_00forconstJson::Value&item_0:value_0{empty_fromitem_0std::stringref.append""/array_of_embeds"".append""/"".appendstd::to_stringi_0&target_0.ati_0errors++i_0iferrors->full{break}}}}iferrors->full{return}}");
   (s_ "voidempty_fromconstJson::Value&valuestd::stringrefEmpty*targetparse::Errors*errors{if!value.isObject{constautoexpected_but_got""Expected an object, but got: ""errors->addrefmessageexpected_but_gotstrlenexpected_but_gotvalue_type_to_stringvalue.typereturn}}");
   (s_ "Json::Valueserialize_emptyconstEmpty&empty{returnJson::objectValue}");
   (s_ "Json::Valueserialize_some_graphconstSomeGraph&some_graph{Json::Valuesome_graph_as_valueJson::Valuetarget_0Json::arrayValueconstauto&vector_0some_graph.array_of_embedsforinti_00i_0<vector_0.size++i_0{target_0[i_0]serialize_emptyvector_0[i_0]}some_graph_as_value[""array_of_embeds""]std::movetarget_0returnsome_graph_as_value}")]
  [([(s_ "value");
   (s_ "ref");
   (s_ "target");
   (s_ "errors")], [(s_ "Empty");
   (s_ "empty_from");
   (s_ "errors");
   (s_ "expected_but_got");
   (s_ "i_0");
   (s_ "item_0");
   (s_ "message");
   (s_ "ref");
   (s_ "size_t");
   (s_ "strlen");
   (s_ "target");
   (s_ "target_0");
   (s_ "value");
   (s_ "value_0");
   (s_ "value_type_to_string")]);
   ([(s_ "value");
   (s_ "ref");
   (s_ "target");
   (s_ "errors")], [(s_ "errors");
   (s_ "expected_but_got");
   (s_ "message");
   (s_ "ref");
   (s_ "strlen");
   (s_ "value");
   (s_ "value_type_to_string")]);
   ([(s_ "empty")], []);
   ([(s_ "some_graph")], [(s_ "i_0");
   (s_ "serialize_empty");
   (s_ "some_graph");
   (s_ "some_graph_as_value");
   (s_ "target_0");
   (s_ "vector_0")])]
  [(s_ "voidsome_graph_fromconstJson::Value&std::stringSomeGraph*parse::Errors*");
   (s_ "voidempty_fromconstJson::Value&std::stringEmpty*parse::Errors*");
   (s_ "Json::Valueserialize_some_graphconstSomeGraph&");
   (s_ "Json::Valueserialize_emptyconstEmpty&")]
  [(s_ "Empty{}");
   (s_ "SomeGraph{std::vector<Empty>array_of_embeds}")]
  [(s_ "vector")] [(s_ "json/json.h")] [(s_ "cstring");
   (s_ "memory");
   (s_ "sstream");
   (s_ "stdexcept");
   (s_ "string");
   (s_ "utility")] [(s_ "string");
   (s_ "vector")].

(** test_cases/general/array/of/float/cpp/test_generate *)
Definition cpp_general_array_of_float : cpp_recorded_source :=
  CppSource
  [(s_ "voidsome_graph_fromconstJson::Value&valuestd::stringrefSomeGraph*targetparse::Errors*errors{iferrors==nullptr{throwstd::invalid_argument""Unexpected null errors""}if!errors->empty{throwstd::invalid_argument""Unexpected non-empty errors""}if!value.isObject{constautoexpected_but_got""Expected an object, but got: ""errors->addrefmessageexpected_but_gotstrlenexpected_but_gotvalue_type_to_stringvalue.typereturn}if!value.isMember""array_of_floats""{errors->addref""Property is missing: array_of_floats""}else{constJson::Value&value_0value[""array_of_floats""]if!value_0.isArray{constautoexpected_but_got""Expected an array, but got: ""errors->addstd::stringref.append""/array_of_floats""messageexpected_but_gotstrlenexpected_but_gotvalue_type_to_stringvalue_0.type}else{std::vector<double>&target_0target->array_of_floatstarget_0.resizevalue_0.sizesize_ti_00forconstJson::Value&item_0:value_0{if!item_0.isDouble{constautoexpected_but_got""Expected a double, but got: ""errors->addstd::stringref.append""/array_of_floats"".append""/"".appendstd::to_stringi_0messageexpected_but_gotstrlenexpected_but_gotvalue_type_to_stringitem_0.type}else{target_0.ati_0item_0.asDouble}++i_0iferrors->full{break}}}}iferrors->full{return}}");
   (s_ "Json::Valueserialize_some_graphconstSomeGraph&some_graph{Json::Valuesome_graph_as_valueJson::Valuetarget_0Json::arrayValueconstauto&vector_0some_graph.array_of_floatsforinti_00i_0<vector_0.size++i_0{target_0[i_0]vector_0[i_0]}some_graph_as_value[""array_of_floats""]std::movetarget_0returnsome_graph_as_value}")]
  [([(s_ "value");
   (s_ "ref");
   (s_ "target");
   (s_ "errors")], [(s_ "errors");
   (s_ "expected_but_got");
   (s_ "i_0");
   (s_ "item_0");
   (s_ "message");
   (s_ "ref");
   (s_ "size_t");
   (s_ "strlen");
   (s_ "target");
   (s_ "target_0");
   (s_ "value");
   (s_ "value_0");
   (s_ "value_type_to_string")]);
   ([(s_ "some_graph")], [(s_ "i_0");
   (s_ "some_graph");
   (s_ "some_graph_as_value");
   (s_ "target_0");
   (s_ "vector_0")])]
  [(s_ "voidsome_graph_fromconstJson::Value&std::stringSomeGraph*parse::Errors*");
   (s_ "Json::Valueserialize_some_graphconstSomeGraph&")]
  [(s_ "SomeGraph{std::vector<double>array_of_floats}")]
  [(s_ "vector")] [(s_ "json/json.h")] [(s_ "cstring");
   (s_ "memory");
   (s_ "sstream");
   (s_ "stdexcept");
   (s_ "string");
   (s_ "utility")] [(s_ "string");
   (s_ "vector")].

(** test_cases/general/array/of/integer/cpp/test_generate *)
Definition cpp_general_array_of_integer : cpp_recorded_source :=
  CppSource
  [(s_ "voidsome_graph_fromconstJson::Value&valuestd::stringrefSomeGraph*targetparse::Errors*errors{iferrors==nullptr{throwstd::invalid_argument""Unexpected null errors""}if!errors->empty{throwstd::invalid_argument""Unexpected non-empty errors""}if!value.isObject{constautoexpected_but_got""Expected an object, but got: ""errors->addrefmessageexpected_but_gotstrlenexpected_but_gotvalue_type_to_stringvalue.typereturn}if!value.isMember""array_of_integers""{errors->addref""Property is missing: array_of_integers""}else{constJson::Value&value_0value[""array_of_integers""]if!value_0.isArray{constautoexpected_but_got""Expected an array, but got: ""errors->addstd::stringref.append""/array_of_integers""messageexpected_but_gotstrlenexpected_but_gotvalue_type_to_stringvalue_0.type}else{std::vector<int64_t>&target_0target->array_of_integerstarget_0.resizevalue_0.sizesize_ti_00forconstJson::Value&item_0:value_0{if!item_0.isInt64{constautoexpected_but_got""Expected an int64, but got: ""errors->addstd::stringref.append""/array_of_integers"".append""/"".appendstd::to_stringi_0messageexpected_but_gotstrlenexpected_but_gotvalue_type_to_stringitem_0.type}else{target_0.ati_0item_0.asInt64}++i_0iferrors->full{break}}}}iferrors->full{return}}");
   (s_ "Json::Valueserialize_some_graphconstSomeGraph&some_graph{Json::Valuesome_graph_as_valueJson::Valuetarget_0Json::arrayValueconstauto&vector_0some_graph.array_of_integersforinti_00i_0<vector_0.size++i_0{target_0[i_0]vector_0[i_0]}some_graph_as_value[""array_of_integers""]std::movetarget_0returnsome_graph_as_value}")]
  [([(s_ "value");
   (s_ "ref");
   (s_ "target");
   (s_ "errors")], [(s_ "errors");
   (s_ "expected_but_got");
   (s_ "i_0");
   (s_ "int64_t");
   (s_ "item_0");
   (s_ "message");
   (s_ "ref");
   (s_ "size_t");
   (s_ "strlen");
   (s_ "target");
   (s_ "target_0");
   (s_ "value");
   (s_ "value_0");
   (s_ "value_type_to_string")]);
   ([(s_ "some_graph")], [(s_ "i_0");
   (s_ "some_graph");
   (s_ "some_graph_as_value");
   (s_ "target_0");
   (s_ "vector_0")])]
  [(s_ "voidsome_graph_fromconstJson::Value&std::stringSomeGraph*parse::Errors*");
   (s_ "Json::Valueserialize_some_graphconstSomeGraph&")]
  [(s_ "SomeGraph{std::vector<int64_t>array_of_integers}")]
  [(s_ "cstdint");
   (s_ "vector")] [(s_ "json/json.h")] [(s_ "cstring");
   (s_ "memory");
   (s_ "sstream");
   (s_ "stdexcept");
   (s_ "string");
   (s_ "utility")] [(s_ "string");
   (s_ "vector")].

(** test_cases/general/array/of/map/cpp/test_generate *)
Definition cpp_general_array_of_map : cpp_recorded_source :=
  CppSource
  [(s_ "voidsome_graph_fromconstJson::Value&valuestd::stringrefSomeGraph*targetparse::Errors*errors{iferrors==nullptr{throwstd::invalid_argument""Unexpected null errors""}if!errors->empty{throwstd::invalid_argument""Unexpected non-empty errors""}if!value.isObject{constautoexpected_but_got""Expected an object, but got: ""errors->addrefmessageexpected_but_gotstrlenexpected_but_gotvalue_type_to_stringvalue.typereturn}if!value.isMember""array_of_maps""{errors->addref""Property is missing: array_of_maps""}else{constJson::Value&value_0value[""array_of_maps""]if!value_0.isArray{constautoexpected_but_got""Expected an array, but got: ""errors->addstd::stringref.append""/array_of_maps""messageexpected_but_gotstrlenexpected_but_gotvalue_type_to_stringvalue_0.type}else{std::vector<std::map<std::stringbool>>&target_0target->array_of_mapstarget_0.resizevalue_0.sizesize_ti_00forconstJson::Value&item_0:value_0{if!item_0.isObject{constautoexpected_but_got""Expected an object, but got: ""errors->addstd::stringref.append""/array_of_maps"".append""/"".appendstd::to_stringi_0messageexpected_but_gotstrlenexpected_but_gotvalue_type_to_stringitem_0.type}else{std::map<std::stringbool>&target_1target_0.ati_0forJson::ValueConstIteratorit_1item_0.beginit_1!=item_0.end++it_1{constJson::Value&value_2*it_1if!value_2.isBool{constautoexpected_but_got""Expected a bool, but got: ""errors->addstd::stringref.append""/array_of_maps"".append""/"".appendstd::to_stringi_0.append""/"".appendit_1.namemessageexpected_but_gotstrlenexpected_but_gotvalue_type_to_stringvalue_2.type}else{target_1[it_1.name]value_2.asBool}iferrors->full{break}}}++i_0iferrors->full{break}}}}iferrors->full{return}}");
   (s_ "Json::Valueserialize_some_graphconstSomeGraph&some_graph{Json::Valuesome_graph_as_valueJson::Valuetarget_0Json::arrayValueconstauto&vector_0some_graph.array_of_mapsforinti_00i_0<vector_0.size++i_0{Json::Valuetarget_1Json::objectValueconstauto&map_1vector_0[i_0]forconstauto&kv_1:map_1{target_1[kv_1.first]kv_1.second}target_0[i_0]std::movetarget_1}some_graph_as_value[""array_of_maps""]std::movetarget_0returnsome_graph_as_value}")]
  [([(s_ "value");
   (s_ "ref");
   (s_ "target");
   (s_ "errors")], [(s_ "errors");
   (s_ "expected_but_got");
   (s_ "i_0");
   (s_ "it_1");
   (s_ "item_0");
   (s_ "message");
   (s_ "ref");
   (s_ "size_t");
   (s_ "strlen");
   (s_ "target");
   (s_ "target_0");
   (s_ "target_1");
   (s_ "value");
   (s_ "value_0");
   (s_ "value_2");
   (s_ "value_type_to_string")]);
   ([(s_ "some_graph")], [(s_ "i_0");
   (s_ "kv_1");
   (s_ "map_1");
   (s_ "some_graph");
   (s_ "some_graph_as_value");
   (s_ "target_0");
   (s_ "target_1");
   (s_ "vector_0")])]
  [(s_ "voidsome_graph_fromconstJson::Value&std::stringSomeGraph*parse::Errors*");
   (s_ "Json::Valueserialize_some_graphconstSomeGraph&")]
  [(s_ "SomeGraph{std::vector<std::map<std::stringbool>>array_of_maps}")]
  [(s_ "map");
   (s_ "vector")] [(s_ "json/json.h")] [(s_ "cstring");
   (s_ "memory");
   (s_ "sstream");
   (s_ "stdexcept");
   (s_ "string");
   (s_ "utility")] [(s_ "string");
   (s_ "vector")].

(** test_cases/general/array/of/path/cpp/test_generate *)
Definition cpp_general_array_of_path : cpp_recorded_source :=
  CppSource
  [(s_ "voidsome_graph_fromconstJson::Value&valuestd::stringrefSomeGraph*targetparse::Errors*errors{iferrors==nullptr{throwstd::invalid_argument""Unexpected null errors""}if!errors->empty{throwstd::invalid_argument""Unexpected non-empty errors""}if!value.isObject{constautoexpected_but_got""Expected an object, but got: ""errors->addrefmessageexpected_but_gotstrlenexpected_but_gotvalue_type_to_stringvalue.typereturn}if!value.isMember""array_of_paths""{errors->addref""Property is missing: array_of_paths""}else{constJson::Value&value_0value[""array_of_paths""]if!value_0.isArray{constautoexpected_but_got""Expected an array, but got: ""errors->addstd::stringref.append""/array_of_paths""messageexpected_but_gotstrlenexpected_but_gotvalue_type_to_stringvalue_0.type}else{std::vector<boost::filesystem::path>&target_0target->array_of_pathstarget_0.resizevalue_0.sizesize_ti_00forconstJson::Value&item_0:value_0{if!item_0.isString{constautoexpected_but_got""Expected a string, but got: ""errors->addstd::stringref.append""/array_of_paths"".append""/"".appendstd::to_stringi_0messageexpected_but_gotstrlenexpected_but_gotvalue_type_to_stringitem_0.type}else{target_0.ati_0boost::filesystem::pathitem_0.asString}++i_0iferrors->full{break}}}}iferrors->full{return}}");
   (s_ "Json::Valueserialize_some_graphconstSomeGraph&some_graph{Json::Valuesome_graph_as_valueJson::Valuetarget_0Json::arrayValueconstauto&vector_0some_graph.array_of_pathsforinti_00i_0<vector_0.size++i_0{target_0[i_0]vector_0[i_0].string}some_graph_as_value[""array_of_paths""]std::movetarget_0returnsome_graph_as_value}")]
  [([(s_ "value");
   (s_ "ref");
   (s_ "target");
   (s_ "errors")], [(s_ "errors");
   (s_ "expected_but_got");
   (s_ "i_0");
   (s_ "item_0");
   (s_ "message");
   (s_ "ref");
   (s_ "size_t");
   (s_ "strlen");
   (s_ "target");
   (s_ "target_0");
   (s_ "value");
   (s_ "value_0");
   (s_ "value_type_to_string")]);
   ([(s_ "some_graph")], [(s_ "i_0");
   (s_ "some_graph");
   (s_ "some_graph_as_value");
   (s_ "target_0");
   (s_ "vector_0")])]
  [(s_ "voidsome_graph_fromconstJson::Value&std::stringSomeGraph*parse::Errors*");
   (s_ "Json::Valueserialize_some_graphconstSomeGraph&")]
  [(s_ "SomeGraph{std::vector<boost::filesystem::path>array_of_paths}")]
  [(s_ "boost/filesystem/path.hpp");
   (s_ "vector")] [(s_ "boost/filesystem/path.hpp");
   (s_ "json/json.h")] [(s_ "cstring");
   (s_ "memory");
   (s_ "sstream");
   (s_ "stdexcept");
   (s_ "string");
   (s_ "utility")] [(s_ "string");
   (s_ "vector")].

(** test_cases/general/array/of/string/cpp/test_generate *)
Definition cpp_general_array_of_string : cpp_recorded_source :=
  CppSource
  [(s_ "voidsome_graph_fromconstJson::Value&valuestd::stringrefSomeGraph*targetparse::Errors*errors{iferrors==nullptr{throwstd::invalid_argument""Unexpected null errors""}if!errors->empty{throwstd::invalid_argument""Unexpected non-empty errors""}if!value.isObject{constautoexpected_but_got""Expected an object, but got: ""errors->addrefmessageexpected_but_gotstrlenexpected_but_gotvalue_type_to_stringvalue.typereturn}if!value.isMember""array_of_strings""{errors->addref""Property is missing: array_of_strings""}else{constJson::Value&value_0value[""array_of_strings""]if!value_0.isArray{constautoexpected_but_got""Expected an array, but got: ""errors->addstd::stringref.append""/array_of_strings""messageexpected_but_gotstrlenexpected_but_gotvalue_type_to_stringvalue_0.type}else{std::vector<std::string>&target_0target->array_of_stringstarget_0.resizevalue_0.sizesize_ti_00forconstJson::Value&item_0:value_0{if!item_0.isString{constautoexpected_but_got""Expected a string, but got: ""errors->addstd::stringref.append""/array_of_strings"".append""/"".appendstd::to_stringi_0messageexpected_but_gotstrlenexpected_but_gotvalue_type_to_stringitem_0.type}else{target_0.ati_0item_0.asString}++i_0iferrors->full{break}}}}iferrors->full{return}}");
   (s_ "Json::Valueserialize_some_graphconstSomeGraph&some_graph{Json::Valuesome_graph_as_valueJson::Valuetarget_0Json::arrayValueconstauto&vector_0some_graph.array_of_stringsforinti_00i_0<vector_0.size++i_0{target_0[i_0]vector_0[i_0]}some_graph_as_value[""array_of_strings""]std::movetarget_0returnsome_graph_as_value}")]
  [([(s_ "value");
   (s_ "ref");
   (s_ "target");
   (s_ "errors")], [(s_ "errors");
   (s_ "expected_but_got");
   (s_ "i_0");
   (s_ "item_0");
   (s_ "message");
   (s_ "ref");
   (s_ "size_t");
   (s_ "strlen");
   (s_ "target");
   (s_ "target_0");
   (s_ "value");
   (s_ "value_0");
   (s_ "value_type_to_string")]);
   ([(s_ "some_graph")], [(s_ "i_0");
   (s_ "some_graph");
   (s_ "some_graph_as_value");
   (s_ "target_0");
   (s_ "vector_0")])]
  [(s_ "voidsome_graph_fromconstJson::Value&std::stringSomeGraph*parse::Errors*");
   (s_ "Json::Valueserialize_some_graphconstSomeGraph&")]
  [(s_ "SomeGraph{std::vector<std::string>array_of_strings}")]
  [(s_ "string");
   (s_ "vector")] [(s_ "json/json.h");
   (s_ "string")] [(s_ "cstring");
   (s_ "memory");
   (s_ "sstream");
   (s_ "stdexcept");
   (s_ "string");
   (s_ "utility")] [(s_ "string");
   (s_ "vector")].

(** test_cases/general/array/of/time/cpp/test_generate *)
Definition cpp_general_array_of_time : cpp_recorded_source :=
  CppSource
  [(s_ "voidsome_graph_fromconstJson::Value&valuestd::stringrefSomeGraph*targetparse::Errors*errors{iferrors==nullptr{throwstd::invalid_argument""Unexpected null errors""}if!errors->empty{throwstd::invalid_argument""Unexpected non-empty errors""}if!value.isObject{constautoexpected_but_got""Expected an object, but got: ""errors->addrefmessageexpected_but_gotstrlenexpected_but_gotvalue_type_to_stringvalue.typereturn}if!value.isMember""array_of_times""{errors->addref""Property is missing: array_of_times""}else{constJson::Value&value_0value[""array_of_times""]if!value_0.isArray{constautoexpected_but_got""Expected an array, but got: ""errors->addstd::stringref.append""/array_of_times""messageexpected_but_gotstrlenexpected_but_gotvalue_type_to_stringvalue_0.type}else{std::vector<structtm>&target_0target->array_of_timestarget_0.resizevalue_0.sizesize_ti_00forconstJson::Value&item_0:value_0{if!item_0.isString{constautoexpected_but_got""Expected a string, but got: ""errors->addstd::stringref.append""/array_of_times"".append""/"".appendstd::to_stringi_0messageexpected_but_gotstrlenexpected_but_gotvalue_type_to_stringitem_0.type}else{conststd::stringcast_1item_0.asStringstructtmtm_1tm{0}char*ret_1strptimecast_1.c_str""%H:%M:%S""&tm_1ifret_1==nullptr||*ret_1!='\0'{constautoexpected_but_got""Expected to strptime %H:%M:%S, but got: ""errors->addstd::stringref.append""/array_of_times"".append""/"".appendstd::to_stringi_0messageexpected_but_gotstrlenexpected_but_gotcast_1}else{target_0.ati_0tm_1}}++i_0iferrors->full{break}}}}iferrors->full{return}}");
   (s_ "Json::Valueserialize_some_graphconstSomeGraph&some_graph{Json::Valuesome_graph_as_valueJson::Valuetarget_0Json::arrayValueconstauto&vector_0some_graph.array_of_timesforinti_00i_0<vector_0.size++i_0{target_0[i_0]tm_to_stringvector_0[i_0]""%H:%M:%S""}some_graph_as_value[""array_of_times""]std::movetarget_0returnsome_graph_as_value}")]
  [([(s_ "value");
   (s_ "ref");
   (s_ "target");
   (s_ "errors")], [(s_ "cast_1");
   (s_ "errors");
   (s_ "expected_but_got");
   (s_ "i_0");
   (s_ "item_0");
   (s_ "message");
   (s_ "ref");
   (s_ "ret_1");
   (s_ "size_t");
   (s_ "strlen");
   (s_ "strptime");
   (s_ "target");
   (s_ "target_0");
   (s_ "tm");
   (s_ "tm_1");
   (s_ "value");
   (s_ "value_0");
   (s_ "value_type_to_string")]);
   ([(s_ "some_graph")], [(s_ "i_0");
   (s_ "some_graph");
   (s_ "some_graph_as_value");
   (s_ "target_0");
   (s_ "tm_to_string");
   (s_ "vector_0")])]
  [(s_ "voidsome_graph_fromconstJson::Value&std::stringSomeGraph*parse::Errors*");
   (s_ "Json::Valueserialize_some_graphconstSomeGraph&")]
  [(s_ "SomeGraph{std::vector<structtm>array_of_times}")]
  [(s_ "ctime");
   (s_ "vector")] [(s_ "json/json.h")] [(s_ "cstring");
   (s_ "memory");
   (s_ "sstream");
   (s_ "stdexcept");
   (s_ "string");
   (s_ "utility")] [(s_ "string");
   (s_ "vector")].

(** test_cases/general/array/of/time_zone/cpp/test_generate *)
Definition cpp_general_array_of_time_zone : cpp_recorded_source :=
  CppSource
  [(s_ "voidsome_graph_fromconstJson::Value&valuestd::stringrefSomeGraph*targetparse::Errors*errors{iferrors==nullptr{throwstd::invalid_argument""Unexpected null errors""}if!errors->empty{throwstd::invalid_argument""Unexpected non-empty errors""}if!value.isObject{constautoexpected_but_got""Expected an object, but got: ""errors->addrefmessageexpected_but_gotstrlenexpected_but_gotvalue_type_to_stringvalue.typereturn}if!value.isMember""array_of_time_zones""{errors->addref""Property is missing: array_of_time_zones""}else{constJson::Value&value_0value[""array_of_time_zones""]if!value_0.isArray{constautoexpected_but_got""Expected an array, but got: ""errors->addstd::stringref.append""/array_of_time_zones""messageexpected_but_gotstrlenexpected_but_gotvalue_type_to_stringvalue_0.type}else{std::vector<std::string>&target_0target->array_of_time_zonestarget_0.resizevalue_0.sizesize_ti_00forconstJson::Value&item_0:value_0{if!item_0.isString{constautoexpected_but_got""Expected a string, but got: ""errors->addstd::stringref.append""/array_of_time_zones"".append""/"".appendstd::to_stringi_0messageexpected_but_gotstrlenexpected_but_gotvalue_type_to_stringitem_0.type}else{target_0.ati_0item_0.asString}++i_0iferrors->full{break}}}}iferrors->full{return}}");
   (s_ "Json::Valueserialize_some_graphconstSomeGraph&some_graph{Json::Valuesome_graph_as_valueJson::Valuetarget_0Json::arrayValueconstauto&vector_0some_graph.array_of_time_zonesforinti_00i_0<vector_0.size++i_0{target_0[i_0]vector_0[i_0]}some_graph_as_value[""array_of_time_zones""]std::movetarget_0returnsome_graph_as_value}")]
  [([(s_ "value");
   (s_ "ref");
   (s_ "target");
   (s_ "errors")], [(s_ "errors");
   (s_ "expected_but_got");
   (s_ "i_0");
   (s_ "item_0");
   (s_ "message");
   (s_ "ref");
   (s_ "size_t");
   (s_ "strlen");
   (s_ "target");
   (s_ "target_0");
   (s_ "value");
   (s_ "value_0");
   (s_ "value_type_to_string")]);
   ([(s_ "some_graph")], [(s_ "i_0");
   (s_ "some_graph");
   (s_ "some_graph_as_value");
   (s_ "target_0");
   (s_ "vector_0")])]
  [(s_ "voidsome_graph_fromconstJson::Value&std::stringSomeGraph*parse::Errors*");
   (s_ "Json::Valueserialize_some_graphconstSomeGraph&")]
  [(s_ "SomeGraph{std::vector<std::string>array_of_time_zones}")]
  [(s_ "string");
   (s_ "vector")] [(s_ "json/json.h")] [(s_ "cstring");
   (s_ "memory");
   (s_ "sstream");
   (s_ "stdexcept");
   (s_ "string");
   (s_ "utility")] [(s_ "string");
   (s_ "vector")].

(** test_cases/general/class/cpp/test_generate *)
Definition cpp_general_class : cpp_recorded_source :=
  CppSource
  [(s_ "voidsome_graph_fromconstJson::Value&valuestd::stringrefSomeGraph*targetparse::Errors*errors{iferrors==nullptr{throwstd::invalid_argument""Unexpected null errors""}if!errors->empty{throwstd::invalid_argument""Unexpected non-empty errors""}if!value.isObject{constautoexpected_but_got""Expected an object, but got: ""errors->addrefmessageexpected_but_gotstrlenexpected_but_gotvalue_type_to_stringvalue.typereturn}std::stringempties_refempties_ref.reserveref.size+8empties_ref+=refempties_ref+=""/empties""ifvalue.isMember""empties""{constJson::Value&objvalue[""empties""]if!obj.isObject{constautoexpected_but_got""Expected an object, but got: ""errors->addempties_refmessageexpected_but_gotstrlenexpected_but_gotvalue_type_to_stringobj.type}else{forJson::ValueConstIteratoritobj.beginit!=obj.end++it{if!std::regex_matchit.nameempty_re::kID{constautoexpected_but_got""Expected ID to match ^[a-zA-Z_\-][a-zA-Z_0-9\-]*$, but got: ""errors->addempties_refmessageexpected_but_gotstrlenexpected_but_gotit.nameiferrors->full{break}}else{autoinstancestd::make_unique<Empty>instance->idit.nametarget->empties[it.name]std::moveinstance}}}}std::stringwith_references_refwith_references_ref.reserveref.size+16with_references_ref+=refwith_references_ref+=""/with_references""ifvalue.isMember""with_references""{constJson::Value&objvalue[""with_references""]if!obj.isObject{constautoexpected_but_got""Expected an object, but got: ""errors->addwith_references_refmessageexpected_but_gotstrlenexpected_but_gotvalue_type_to_stringobj.type}else{forJson::ValueConstIteratoritobj.beginit!=obj.end++it{autoinstancestd::make_unique<WithReference>instance->idit.nametarget->with_references[it.name]std::moveinstance}}}if!errors->empty{return}std::stringinstance_refinstance_ref.clearinstance_ref+=empties_refinstance_ref+='/'ifvalue.isMember""empties""{constJson::Value&objvalue[""empties""]forJson::ValueConstIteratoritobj.beginit!=obj.end++it{instance_ref.reserveempties_ref.size+1+it.name.sizeinstance_ref.resizeempties_ref.size+1instance_ref.appendit.nameEmpty*instancetarget->empties.atit.name.getempty_from*itinstance_refinstanceerrorsiferrors->full{break}}}iferrors->full{return}instance_ref.clearinstance_ref+=with_references_refinstance_ref+='/'ifvalue.isMember""with_references""{constJson::Value&objvalue[""with_references""]forJson::ValueConstIteratoritobj.beginit!=obj.end++it{instance_ref.reservewith_references_ref.size+1+it.name.sizeinstance_ref.resizewith_references_ref.size+1instance_ref.appendit.nameWithReference*instancetarget->with_references.atit.name.getwith_reference_from*ittarget->emptiesinstance_refinstanceerrorsiferrors->full{break}}}iferrors->full{return}if!value.isMember""global_reference_to_an_empty""{errors->addref""Property is missing: global_reference_to_an_empty""}else{constJson::Value&value_0value[""global_reference_to_an_empty""]if!value_0.isString{constautoexpected_but_got""Expected a string, but got: ""errors->addstd::stringref.append""/global_reference_to_an_empty""messageexpected_but_gotstrlenexpected_but_gotvalue_type_to_stringvalue_0.type}else{conststd::string&cast_0value_0.asStringiftarget->empties.countcast_0==0{constautoreference_not_found""Reference to an instance of class Empty not found: ""errors->addstd::stringref.append""/global_reference_to_an_empty""messagereference_not_foundstrlenreference_not_foundcast_0}else{target->global_reference_to_an_emptytarget->empties.atcast_0.get}}}iferrors->full{return}}");
   (s_ "voidempty_fromconstJson::Value&valuestd::stringrefEmpty*targetparse::Errors*errors{if!value.isObject{constautoexpected_but_got""Expected an object, but got: ""errors->addrefmessageexpected_but_gotstrlenexpected_but_gotvalue_type_to_stringvalue.typereturn}}");
   (s_ "voidwith_reference_fromconstJson::Value&valueconststd::map<std::stringstd::unique_ptr<Empty>>&empties_registrystd::stringrefWithReference*targetparse::Errors*errors{if!value.isObject{constautoexpected_but_got""Expected an object, but got: ""errors->addrefmessageexpected_but_gotstrlenexpected_but_gotvalue_type_to_stringvalue.typereturn}if!value.isMember""reference_to_an_empty""{errors->addref""Property is missing: reference_to_an_empty""}else{constJson::Value&value_0value[""reference_to_an_empty""]if!value_0.isString{constautoexpected_but_got""Expected a string, but got: ""errors->addstd::stringref.append""/reference_to_an_empty""messageexpected_but_gotstrlenexpected_but_gotvalue_type_to_stringvalue_0.type}else{conststd::string&cast_0value_0.asStringifempties_registry.countcast_0==0{constautoreference_not_found""Reference to an instance of class Empty not found: ""errors->addstd::stringref.append""/reference_to_an_empty""messagereference_not_foundstrlenreference_not_foundcast_0}else{target->reference_to_an_emptyempties_registry.atcast_0.get}}}iferrors->full{return}if!value.isMember""array_of_empties""{errors->addref""Property is missing: array_of_empties""}else{constJson::Value&value_1value[""array_of_empties""]if!value_1.isArray{constautoexpected_but_got""Expected an array, but got: ""errors->addstd::stringref.append""/array_of_empties""messageexpected_but_gotstrlenexpected_but_gotvalue_type_to_stringvalue_1.type}else{std::vector<Empty*>&target_1target->array_of_emptiestarget_1.resizevalue_1.sizesize_ti_10forconstJson::Value&item_1:value_1{if!item_1.isString{constautoexpected_but_got""Expected a string, but got: ""errors->addstd::stringref.append""/array_of_empties"".append""/"".appendstd::to_stringi_1messageexpected_but_gotstrlenexpected_but_gotvalue_type_to_stringitem_1.type}else{conststd::string&cast_2item_1.asStringifempties_registry.countcast_2==0{constautoreference_not_found""Reference to an instance of class Empty not found: ""errors->addstd::stringref.append""/array_of_empties"".append""/"".appendstd::to_stringi_1messagereference_not_foundstrlenreference_not_foundcast_2}else{target_1.ati_1empties_registry.atcast_2.get}}++i_1iferrors->full{break}}}}iferrors->full{return}if!value.isMember""map_of_empties""{errors->addref""Property is missing: map_of_empties""}else{constJson::Value&value_3value[""map_of_empties""]if!value_3.isObject{constautoexpected_but_got""Expected an object, but got: ""errors->addstd::stringref.append""/map_of_empties""messageexpected_but_gotstrlenexpected_but_gotvalue_type_to_stringvalue_3.type}else{std::map<std::stringEmpty*>&target_3target->map_of_emptiesforJson::ValueConstIteratorit_3value_3.beginit_3!=value_3.end++it_3{constJson::Value&value_4*it_3if!value_4.isString{constautoexpected_but_got""Expected a string, but got: ""errors->addstd::stringref.append""/map_of_empties"".append""/"".appendit_3.namemessageexpected_but_gotstrlenexpected_but_gotvalue_type_to_stringvalue_4.type}else{conststd::string&cast_4value_4.asStringifempties_registry.countcast_4==0{constautoreference_not_found""Reference to an instance of class Empty not found: ""errors->addstd::stringref.append""/map_of_empties"".append""/"".appendit_3.namemessagereference_not_foundstrlenreference_not_foundcast_4}else{target_3[it_3.name]empties_registry.atcast_4.get}}iferrors->full{break}}}}iferrors->full{return}}");
   (s_ "Json::Valueserialize_emptyconstEmpty&empty{returnJson::objectValue}");
   (s_ "Json::Valueserialize_with_referenceconstWithReference&with_reference{Json::Valuewith_reference_as_valuewith_reference_as_value[""reference_to_an_empty""]with_reference.reference_to_an_empty->idJson::Valuetarget_0Json::arrayValueconstauto&vector_0with_reference.array_of_emptiesforinti_00i_0<vector_0.size++i_0{target_0[i_0]vector_0[i_0]->id}with_reference_as_value[""array_of_empties""]std::movetarget_0Json::Valuetarget_1Json::objectValueconstauto&map_1with_reference.map_of_emptiesforconstauto&kv_1:map_1{target_1[kv_1.first]kv_1.second->id}with_reference_as_value[""map_of_empties""]std::movetarget_1returnwith_reference_as_value}");
   (s_ "Json::Valueserialize_some_graphconstSomeGraph&some_graph{Json::Valuesome_graph_as_valuesome_graph_as_value[""global_reference_to_an_empty""]some_graph.global_reference_to_an_empty->idif!some_graph.empties.empty{Json::Valueempties_as_valueforconstauto&kv:some_graph.empties{conststd::string&idkv.firstconstEmpty*instancekv.second.getifid!=instance->id{constautoexpected""Expected the class instance of Emptyto have the ID ""constautobut_got"", but got: ""std::stringmsgmsg.reservestrlenexpected+id.size+strlenbut_got+instance->id.sizemsg+=expectedmsg+=idmsg+=but_gotmsg+=instance->idthrowstd::invalid_argumentmsg}empties_as_value[instance->id]serialize_empty*instance}some_graph_as_value[""empties""]empties_as_value}if!some_graph.with_references.empty{Json::Valuewith_references_as_valueforconstauto&kv:some_graph.with_references{conststd::string&idkv.firstconstWithReference*instancekv.second.getifid!=instance->id{constautoexpected""Expected the class instance of WithReferenceto have the ID ""constautobut_got"", but got: ""std::stringmsgmsg.reservestrlenexpected+id.size+strlenbut_got+instance->id.sizemsg+=expectedmsg+=idmsg+=but_gotmsg+=instance->idthrowstd::invalid_argumentmsg}with_references_as_value[instance->id]serialize_with_reference*instance}some_graph_as_value[""with_references""]with_references_as_value}returnsome_graph_as_value}")]
  [([(s_ "value");
   (s_ "ref");
   (s_ "target");
   (s_ "errors")], [(s_ "Empty");
   (s_ "WithReference");
   (s_ "cast_0");
   (s_ "empties_ref");
   (s_ "empty_from");
   (s_ "empty_re");
   (s_ "errors");
   (s_ "expected_but_got");
   (s_ "instance");
   (s_ "instance_ref");
   (s_ "it");
   (s_ "message");
   (s_ "obj");
   (s_ "ref");
   (s_ "reference_not_found");
   (s_ "strlen");
   (s_ "target");
   (s_ "value");
   (s_ "value_0");
   (s_ "value_type_to_string");
   (s_ "with_reference_from");
   (s_ "with_references_ref")]);
   ([(s_ "value");
   (s_ "ref");
   (s_ "target");
   (s_ "errors")], [(s_ "errors");
   (s_ "expected_but_got");
   (s_ "message");
   (s_ "ref");
   (s_ "strlen");
   (s_ "value");
   (s_ "value_type_to_string")]);
   ([(s_ "value");
   (s_ "empties_registry");
   (s_ "ref");
   (s_ "target");
   (s_ "errors")], [(s_ "Empty");
   (s_ "cast_0");
   (s_ "cast_2");
   (s_ "cast_4");
   (s_ "empties_registry");
   (s_ "errors");
   (s_ "expected_but_got");
   (s_ "i_1");
   (s_ "it_3");
   (s_ "item_1");
   (s_ "message");
   (s_ "ref");
   (s_ "reference_not_found");
   (s_ "size_t");
   (s_ "strlen");
   (s_ "target");
   (s_ "target_1");
   (s_ "target_3");
   (s_ "value");
   (s_ "value_0");
   (s_ "value_1");
   (s_ "value_3");
   (s_ "value_4");
   (s_ "value_type_to_string")]);
   ([(s_ "empty")], []);
   ([(s_ "with_reference")], [(s_ "i_0");
   (s_ "kv_1");
   (s_ "map_1");
   (s_ "target_0");
   (s_ "target_1");
   (s_ "vector_0");
   (s_ "with_reference");
   (s_ "with_reference_as_value")]);
   ([(s_ "some_graph")], [(s_ "Empty");
   (s_ "WithReference");
   (s_ "but_got");
   (s_ "empties_as_value");
   (s_ "expected");
   (s_ "id");
   (s_ "instance");
   (s_ "kv");
   (s_ "msg");
   (s_ "serialize_empty");
   (s_ "serialize_with_reference");
   (s_ "some_graph");
   (s_ "some_graph_as_value");
   (s_ "strlen");
   (s_ "with_references_as_value")])]
  [(s_ "voidsome_graph_fromconstJson::Value&std::stringSomeGraph*parse::Errors*");
   (s_ "voidempty_fromconstJson::Value&std::stringEmpty*parse::Errors*");
   (s_ "voidwith_reference_fromconstJson::Value&conststd::map<std::stringstd::unique_ptr<Empty>>&std::stringWithReference*parse::Errors*");
   (s_ "Json::Valueserialize_some_graphconstSomeGraph&");
   (s_ "Json::Valueserialize_emptyconstEmpty&");
   (s_ "Json::Valueserialize_with_referenceconstWithReference&")]
  [(s_ "Empty{std::stringid}");
   (s_ "WithReference{std::stringidEmpty*reference_to_an_emptynullptrstd::vector<Empty*>array_of_emptiesstd::map<std::stringEmpty*>map_of_empties}");
   (s_ "SomeGraph{Empty*global_reference_to_an_emptynullptrstd::map<std::stringstd::unique_ptr<Empty>>emptiesstd::map<std::stringstd::unique_ptr<WithReference>>with_references}")]
  [(s_ "map");
   (s_ "memory");
   (s_ "string");
   (s_ "vector")] [(s_ "json/json.h");
   (s_ "map");
   (s_ "string")] [(s_ "cstring");
   (s_ "memory");
   (s_ "regex");
   (s_ "sstream");
   (s_ "stdexcept");
   (s_ "string");
   (s_ "utility")] [(s_ "string");
   (s_ "vector")].

(** test_cases/general/class_ref_in_embed/cpp/test_generate *)
Definition cpp_general_class_ref_in_embed : cpp_recorded_source :=
  CppSource
  [(s_ "voidsome_graph_fromconstJson::Value&valuestd::stringrefSomeGraph*targetparse::Errors*errors{iferrors==nullptr{throwstd::invalid_argument""Unexpected null errors""}if!errors->empty{throwstd::invalid_argument""Unexpected non-empty errors""}if!value.isObject{constautoexpected_but_got""Expected an object, but got: ""errors->addrefmessageexpected_but_gotstrlenexpected_but_gotvalue_type_to_stringvalue.typereturn}std::stringempties_refempties_ref.reserveref.size+8empties_ref+=refempties_ref+=""/empties""ifvalue.isMember""empties""{constJson::Value&objvalue[""empties""]if!obj.isObject{constautoexpected_but_got""Expected an object, but got: ""errors->addempties_refmessageexpected_but_gotstrlenexpected_but_gotvalue_type_to_stringobj.type}else{forJson::ValueConstIteratoritobj.beginit!=obj.end++it{autoinstancestd::make_unique<Empty>instance->idit.nametarget->empties[it.name]std::moveinstance}}}if!errors->empty{return}std::stringinstance_refinstance_ref.clearinstance_ref+=empties_refinstance_ref+='/'ifvalue.isMember""empties""{constJson::Value&objvalue[""empties""]forJson::ValueConstIteratoritobj.beginit!=obj.end++it{instance_ref.reserveempties_ref.size+1+it.name.sizeinstance_ref.resizeempties_ref.size+1instance_ref.appendit.nameEmpty*instancetarget->empties.atit.name.getempty_from*itinstance_refinstanceerrorsiferrors->full{break}}}iferrors->full{return}if!value.isMember""some_embed""{errors->addref""Property is missing: some_embed""}else{constJson::Value&value_0value[""some_embed""]embed_with_ref_fromvalue_0target->emptiesstd::stringref.append""/some_embed""&target->some_embederrors}iferrors->full{return}}");
   (s_ "voidempty_fromconstJson::Value&valuestd::stringrefEmpty*targetparse::Errors*errors{if!value.isObject{constautoexpected_but_got""Expected an object, but got: ""errors->addrefmessageexpected_but_gotstrlenexpected_but_gotvalue_type_to_stringvalue.typereturn}}");
   (s_ "voidembed_with_ref_fromconstJson::Value&valueconststd::map<std::stringstd::unique_ptr<Empty>>&empties_registrystd::stringrefEmbedWithRef*targetparse::Errors*errors{if!value.isObject{constautoexpected_but_got""Expected an object, but got: ""errors->addrefmessageexpected_but_gotstrlenexpected_but_gotvalue_type_to_stringvalue.typereturn}if!value.isMember""reference_to_empty""{errors->addref""Property is missing: reference_to_empty""}else{constJson::Value&value_0value[""reference_to_empty""]if!value_0.isString{constautoexpected_but_got""Expected a string, but got: ""errors->addstd::stringref.append""/reference_to_empty""messageexpected_but_gotstrlenexpected_but_gotvalue_type_to_stringvalue_0.type}else{conststd::string&cast_0value_0.asStringifempties_registry.countcast_0==0{constautoreference_not_found""Reference to an instance of class Empty not found: ""errors->addstd::stringref.append""/reference_to_empty""messagereference_not_foundstrlenreference_not_foundcast_0}else{target->reference_to_emptyempties_registry.atcast_0.get}}}iferrors->full{return}}");
   (s_ "Json::Valueserialize_emptyconstEmpty&empty{returnJson::objectValue}");
   (s_ "Json::Valueserialize_embed_with_refconstEmbedWithRef&embed_with_ref{Json::Valueembed_with_ref_as_valueembed_with_ref_as_value[""reference_to_empty""]embed_with_ref.reference_to_empty->idreturnembed_with_ref_as_value}");
   (s_ "Json::Valueserialize_some_graphconstSomeGraph&some_graph{Json::Valuesome_graph_as_valuesome_graph_as_value[""some_embed""]serialize_embed_with_refsome_graph.some_embedif!some_graph.empties.empty{Json::Valueempties_as_valueforconstauto&kv:some_graph.empties{conststd::string&idkv.firstconstEmpty*instancekv.second.getifid!=instance->id{constautoexpected""Expected the class instance of Emptyto have the ID ""constautobut_got"", but got: ""std::stringmsgmsg.reservestrlenexpected+id.size+strlenbut_got+instance->id.sizemsg+=expectedmsg+=idmsg+=but_gotmsg+=instance->idthrowstd::invalid_argumentmsg}empties_as_value[instance->id]serialize_empty*instance}some_graph_as_value[""empties""]empties_as_value}returnsome_graph_as_value}")]
  [([(s_ "value");
   (s_ "ref");
   (s_ "target");
   (s_ "errors")], [(s_ "Empty");
   (s_ "embed_with_ref_from");
   (s_ "empties_ref");
   (s_ "empty_from");
   (s_ "errors");
   (s_ "expected_but_got");
   (s_ "instance");
   (s_ "instance_ref");
   (s_ "it");
   (s_ "message");
   (s_ "obj");
   (s_ "ref");
   (s_ "strlen");
   (s_ "target");
   (s_ "value");
   (s_ "value_0");
   (s_ "value_type_to_string")]);
   ([(s_ "value");
   (s_ "ref");
   (s_ "target");
   (s_ "errors")], [(s_ "errors");
   (s_ "expected_but_got");
   (s_ "message");
   (s_ "ref");
   (s_ "strlen");
   (s_ "value");
   (s_ "value_type_to_string")]);
   ([(s_ "value");
   (s_ "empties_registry");
   (s_ "ref");
   (s_ "target");
   (s_ "errors")], [(s_ "cast_0");
   (s_ "empties_registry");
   (s_ "errors");
   (s_ "expected_but_got");
   (s_ "message");
   (s_ "ref");
   (s_ "reference_not_found");
   (s_ "strlen");
   (s_ "target");
   (s_ "value");
   (s_ "value_0");
   (s_ "value_type_to_string")]);
   ([(s_ "empty")], []);
   ([(s_ "embed_with_ref")], [(s_ "embed_with_ref");
   (s_ "embed_with_ref_as_value")]);
   ([(s_ "some_graph")], [(s_ "Empty");
   (s_ "but_got");
   (s_ "empties_as_value");
   (s_ "expected");
   (s_ "id");
   (s_ "instance");
   (s_ "kv");
   (s_ "msg");
   (s_ "serialize_embed_with_ref");
   (s_ "serialize_empty");
   (s_ "some_graph");
   (s_ "some_graph_as_value");
   (s_ "strlen")])]
  [(s_ "voidsome_graph_fromconstJson::Value&std::stringSomeGraph*parse::Errors*");
   (s_ "voidembed_with_ref_fromconstJson::Value&conststd::map<std::stringstd::unique_ptr<Empty>>&std::stringEmbedWithRef*parse::Errors*");
   (s_ "voidempty_fromconstJson::Value&std::stringEmpty*parse::Errors*");
   (s_ "Json::Valueserialize_some_graphconstSomeGraph&");
   (s_ "Json::Valueserialize_emptyconstEmpty&");
   (s_ "Json::Valueserialize_embed_with_refconstEmbedWithRef&")]
  [(s_ "EmbedWithRef{Empty*reference_to_emptynullptr}");
   (s_ "Empty{std::stringid}");
   (s_ "SomeGraph{EmbedWithRefsome_embedstd::map<std::stringstd::unique_ptr<Empty>>empties}")]
  [(s_ "map");
   (s_ "memory");
   (s_ "string")] [(s_ "json/json.h");
   (s_ "map");
   (s_ "string")] [(s_ "cstring");
   (s_ "memory");
   (s_ "sstream");
   (s_ "stdexcept");
   (s_ "string");
   (s_ "utility")] [(s_ "string");
   (s_ "vector")].

(** test_cases/general/embed/cpp/test_generate *)
Definition cpp_general_embed : cpp_recorded_source :=
  CppSource
  [(s_ "voidsome_graph_fromconstJson::Value&valuestd::stringrefSomeGraph*targetparse::Errors*errors{iferrors==nullptr{throwstd::invalid_argument""Unexpected null errors""}if!errors->empty{throwstd::invalid_argument""Unexpected non-empty errors""}if!value.isObject{constautoexpected_but_got""Expected an object, but got: ""errors->addrefmessageexpected_but_gotstrlenexpected_but_gotvalue_type_to_stringvalue.typereturn}if!value.isMember""some_embed""{errors->addref""Property is missing: some_embed""}else{constJson::Value&value_0value[""some_embed""]non_empty_fromvalue_0std::stringref.append""/some_embed""&target->some_embederrors}iferrors->full{return}}");
   (s_ "voidempty_fromconstJson::Value&valuestd::stringrefEmpty*targetparse::Errors*errors{if!value.isObject{constautoexpected_but_got""Expected an object, but got: ""errors->addrefmessageexpected_but_gotstrlenexpected_but_gotvalue_type_to_stringvalue.typereturn}}");
   (s_ "voidnon_empty_fromconstJson::Value&valuestd::stringrefNonEmpty*targetparse::Errors*errors{if!value.isObject{constautoexpected_but_got""Expected an object, but got: ""errors->addrefmessageexpected_but_gotstrlenexpected_but_gotvalue_type_to_stringvalue.typereturn}if!value.isMember""empty""{errors->addref""Property is missing: empty""}else{constJson::Value&value_0value[""empty""]empty_fromvalue_0std::stringref.append""/empty""&target->emptyerrors}iferrors->full{return}}");
   (s_ "Json::Valueserialize_emptyconstEmpty&empty{returnJson::objectValue}");
   (s_ "Json::Valueserialize_non_emptyconstNonEmpty&non_empty{Json::Valuenon_empty_as_valuenon_empty_as_value[""empty""]serialize_emptynon_empty.emptyreturnnon_empty_as_value}");
   (s_ "Json::Valueserialize_some_graphconstSomeGraph&some_graph{Json::Valuesome_graph_as_valuesome_graph_as_value[""some_embed""]serialize_non_emptysome_graph.some_embedreturnsome_graph_as_value}")]
  [([(s_ "value");
   (s_ "ref");
   (s_ "target");
   (s_ "errors")], [(s_ "errors");
   (s_ "expected_but_got");
   (s_ "message");
   (s_ "non_empty_from");
   (s_ "ref");
   (s_ "strlen");
   (s_ "target");
   (s_ "value");
   (s_ "value_0");
   (s_ "value_type_to_string")]);
   ([(s_ "value");
   (s_ "ref");
   (s_ "target");
   (s_ "errors")], [(s_ "errors");
   (s_ "expected_but_got");
   (s_ "message");
   (s_ "ref");
   (s_ "strlen");
   (s_ "value");
   (s_ "value_type_to_string")]);
   ([(s_ "value");
   (s_ "ref");
   (s_ "target");
   (s_ "errors")], [(s_ "empty_from");
   (s_ "errors");
   (s_ "expected_but_got");
   (s_ "message");
   (s_ "ref");
   (s_ "strlen");
   (s_ "target");
   (s_ "value");
   (s_ "value_0");
   (s_ "value_type_to_string")]);
   ([(s_ "empty")], []);
   ([(s_ "non_empty")], [(s_ "non_empty");
   (s_ "non_empty_as_value");
   (s_ "serialize_empty")]);
   ([(s_ "some_graph")], [(s_ "serialize_non_empty");
   (s_ "some_graph");
   (s_ "some_graph_as_value")])]
  [(s_ "voidsome_graph_fromconstJson::Value&std::stringSomeGraph*parse::Errors*");
   (s_ "voidempty_fromconstJson::Value&std::stringEmpty*parse::Errors*");
   (s_ "voidnon_empty_fromconstJson::Value&std::stringNonEmpty*parse::Errors*");
   (s_ "Json::Valueserialize_some_graphconstSomeGraph&");
   (s_ "Json::Valueserialize_emptyconstEmpty&");
   (s_ "Json::Valueserialize_non_emptyconstNonEmpty&")]
  [(s_ "Empty{}");
   (s_ "NonEmpty{Emptyempty}");
   (s_ "SomeGraph{NonEmptysome_embed}")]
  [] [(s_ "json/json.h")] [(s_ "cstring");
   (s_ "memory");
   (s_ "sstream");
   (s_ "stdexcept");
   (s_ "string");
   (s_ "utility")] [(s_ "string");
   (s_ "vector")].

(** test_cases/general/forward_declaration/cpp/test_generate *)
Definition cpp_general_forward_declaration : cpp_recorded_source :=
  CppSource
  [(s_ "voidsome_graph_fromconstJson::Value&valuestd::stringrefSomeGraph*targetparse::Errors*errors{iferrors==nullptr{throwstd::invalid_argument""Unexpected null errors""}if!errors->empty{throwstd::invalid_argument""Unexpected non-empty errors""}if!value.isObject{constautoexpected_but_got""Expected an object, but got: ""errors->addrefmessageexpected_but_gotstrlenexpected_but_gotvalue_type_to_stringvalue.typereturn}std::stringsome_classes_refsome_classes_ref.reserveref.size+13some_classes_ref+=refsome_classes_ref+=""/some_classes""ifvalue.isMember""some_classes""{constJson::Value&objvalue[""some_classes""]if!obj.isObject{constautoexpected_but_got""Expected an object, but got: ""errors->addsome_classes_refmessageexpected_but_gotstrlenexpected_but_gotvalue_type_to_stringobj.type}else{forJson::ValueConstIteratoritobj.beginit!=obj.end++it{autoinstancestd::make_unique<SomeClass>instance->idit.nametarget->some_classes[it.name]std::moveinstance}}}std::stringother_classes_refother_classes_ref.reserveref.size+14other_classes_ref+=refother_classes_ref+=""/other_classes""ifvalue.isMember""other_classes""{constJson::Value&objvalue[""other_classes""]if!obj.isObject{constautoexpected_but_got""Expected an object, but got: ""errors->addother_classes_refmessageexpected_but_gotstrlenexpected_but_gotvalue_type_to_stringobj.type}else{forJson::ValueConstIteratoritobj.beginit!=obj.end++it{autoinstancestd::make_unique<OtherClass>instance->idit.nametarget->other_classes[it.name]std::moveinstance}}}if!errors->empty{return}std::stringinstance_refinstance_ref.clearinstance_ref+=some_classes_refinstance_ref+='/'ifvalue.isMember""some_classes""{constJson::Value&objvalue[""some_classes""]forJson::ValueConstIteratoritobj.beginit!=obj.end++it{instance_ref.reservesome_classes_ref.size+1+it.name.sizeinstance_ref.resizesome_classes_ref.size+1instance_ref.appendit.nameSomeClass*instancetarget->some_classes.atit.name.getsome_class_from*ittarget->other_classestarget->some_classesinstance_refinstanceerrorsiferrors->full{break}}}iferrors->full{return}instance_ref.clearinstance_ref+=other_classes_refinstance_ref+='/'ifvalue.isMember""other_classes""{constJson::Value&objvalue[""other_classes""]forJson::ValueConstIteratoritobj.beginit!=obj.end++it{instance_ref.reserveother_classes_ref.size+1+it.name.sizeinstance_ref.resizeother_classes_ref.size+1instance_ref.appendit.nameOtherClass*instancetarget->other_classes.atit.name.getother_class_from*ittarget->other_classestarget->some_classesinstance_refinstanceerrorsiferrors->full{break}}}iferrors->full{return}}");
   (s_ "voidsome_class_fromconstJson::Value&valueconststd::map<std::stringstd::unique_ptr<OtherClass>>&other_classes_registryconststd::map<std::stringstd::unique_ptr<SomeClass>>&some_classes_registrystd::stringrefSomeClass*targetparse::Errors*errors{if!value.isObject{constautoexpected_but_got""Expected an object, but got: ""errors->addrefmessageexpected_but_gotstrlenexpected_but_gotvalue_type_to_stringvalue.typereturn}if!value.isMember""reference_other""{errors->addref""Property is missing: reference_other""}else{constJson::Value&value_0value[""reference_other""]if!value_0.isString{constautoexpected_but_got""Expected a string, but got: ""errors->addstd::stringref.append""/reference_other""messageexpected_but_gotstrlenexpected_but_gotvalue_type_to_stringvalue_0.type}else{conststd::string&cast_0value_0.asStringifother_classes_registry.countcast_0==0{constautoreference_not_found""Reference to an instance of class Other_class not found: ""errors->addstd::stringref.append""/reference_other""messagereference_not_foundstrlenreference_not_foundcast_0}else{target->reference_otherother_classes_registry.atcast_0.get}}}iferrors->full{return}if!value.isMember""array_of_others""{errors->addref""Property is missing: array_of_others""}else{constJson::Value&value_1value[""array_of_others""]if!value_1.isArray{constautoexpected_but_got""Expected an array, but got: ""errors->addstd::stringref.append""/array_of_others""messageexpected_but_gotstrlenexpected_but_gotvalue_type_to_stringvalue_1.type}else{std::vector<OtherClass*>&target_1target->array_of_otherstarget_1.resizevalue_1.sizesize_ti_10forconstJson::Value&item_1:value_1{if!item_1.isString{constautoexpected_but_got""Expected a string, but got: ""errors->addstd::stringref.append""/array_of_others"".append""/"".appendstd::to_stringi_1messageexpected_but_gotstrlenexpected_but_gotvalue_type_to_stringitem_1.type}else{conststd::string&cast_2item_1.asStringifother_classes_registry.countcast_2==0{constautoreference_not_found""Reference to an instance of class Other_class not found: ""errors->addstd::stringref.append""/array_of_others"".append""/"".appendstd::to_stringi_1messagereference_not_foundstrlenreference_not_foundcast_2}else{target_1.ati_1other_classes_registry.atcast_2.get}}++i_1iferrors->full{break}}}}iferrors->full{return}if!value.isMember""map_of_others""{errors->addref""Property is missing: map_of_others""}else{constJson::Value&value_3value[""map_of_others""]if!value_3.isObject{constautoexpected_but_got""Expected an object, but got: ""errors->addstd::stringref.append""/map_of_others""messageexpected_but_gotstrlenexpected_but_gotvalue_type_to_stringvalue_3.type}else{std::map<std::stringOtherClass*>&target_3target->map_of_othersforJson::ValueConstIteratorit_3value_3.beginit_3!=value_3.end++it_3{constJson::Value&value_4*it_3if!value_4.isString{constautoexpected_but_got""Expected a string, but got: ""errors->addstd::stringref.append""/map_of_others"".append""/"".appendit_3.namemessageexpected_but_gotstrlenexpected_but_gotvalue_type_to_stringvalue_4.type}else{conststd::string&cast_4value_4.asStringifother_classes_registry.countcast_4==0{constautoreference_not_found""Reference to an instance of class Other_class not found: ""errors->addstd::stringref.append""/map_of_others"".append""/"".appendit_3.namemessagereference_not_foundstrlenreference_not_foundcast_4}else{target_3[it_3.name]other_classes_registry.atcast_4.get}}iferrors->full{break}}}}iferrors->full{return}}");
   (s_ "voidother_class_fromconstJson::Value&valueconststd::map<std::stringstd::unique_ptr<OtherClass>>&other_classes_registryconststd::map<std::stringstd::unique_ptr<SomeClass>>&some_classes_registrystd::stringrefOtherClass*targetparse::Errors*errors{if!value.isObject{constautoexpected_but_got""Expected an object, but got: ""errors->addrefmessageexpected_but_gotstrlenexpected_but_gotvalue_type_to_stringvalue.typereturn}if!value.isMember""reference_some""{errors->addref""Property is missing: reference_some""}else{constJson::Value&value_0value[""reference_some""]if!value_0.isString{constautoexpected_but_got""Expected a string, but got: ""errors->addstd::stringref.append""/reference_some""messageexpected_but_gotstrlenexpected_but_gotvalue_type_to_stringvalue_0.type}else{conststd::string&cast_0value_0.asStringifsome_classes_registry.countcast_0==0{constautoreference_not_found""Reference to an instance of class Some_class not found: ""errors->addstd::stringref.append""/reference_some""messagereference_not_foundstrlenreference_not_foundcast_0}else{target->reference_somesome_classes_registry.atcast_0.get}}}iferrors->full{return}if!value.isMember""array_of_somes""{errors->addref""Property is missing: array_of_somes""}else{constJson::Value&value_1value[""array_of_somes""]if!value_1.isArray{constautoexpected_but_got""Expected an array, but got: ""errors->addstd::stringref.append""/array_of_somes""messageexpected_but_gotstrlenexpected_but_gotvalue_type_to_stringvalue_1.type}else{std::vector<SomeClass*>&target_1target->array_of_somestarget_1.resizevalue_1.sizesize_ti_10forconstJson::Value&item_1:value_1{if!item_1.isString{constautoexpected_but_got""Expected a string, but got: ""errors->addstd::stringref.append""/array_of_somes"".append""/"".appendstd::to_stringi_1messageexpected_but_gotstrlenexpected_but_gotvalue_type_to_stringitem_1.type}else{conststd::string&cast_2item_1.asStringifsome_classes_registry.countcast_2==0{constautoreference_not_found""Reference to an instance of class Some_class not found: ""errors->addstd::stringref.append""/array_of_somes"".append""/"".appendstd::to_stringi_1messagereference_not_foundstrlenreference_not_foundcast_2}else{target_1.ati_1some_classes_registry.atcast_2.get}}++i_1iferrors->full{break}}}}iferrors->full{return}if!value.isMember""map_of_somes""{errors->addref""Property is missing: map_of_somes""}else{constJson::Value&value_3value[""map_of_somes""]if!value_3.isObject{constautoexpected_but_got""Expected an object, but got: ""errors->addstd::stringref.append""/map_of_somes""messageexpected_but_gotstrlenexpected_but_gotvalue_type_to_stringvalue_3.type}else{std::map<std::stringSomeClass*>&target_3target->map_of_somesforJson::ValueConstIteratorit_3value_3.beginit_3!=value_3.end++it_3{constJson::Value&value_4*it_3if!value_4.isString{constautoexpected_but_got""Expected a string, but got: ""errors->addstd::stringref.append""/map_of_somes"".append""/"".appendit_3.namemessageexpected_but_gotstrlenexpected_but_gotvalue_type_to_stringvalue_4.type}else{conststd::string&cast_4value_4.asStringifsome_classes_registry.countcast_4==0{constautoreference_not_found""Reference to an instance of class Some_class not found: ""errors->addstd::stringref.append""/map_of_somes"".append""/"".appendit_3.namemessagereference_not_foundstrlenreference_not_foundcast_4}else{target_3[it_3.name]some_classes_registry.atcast_4.get}}iferrors->full{break}}}}iferrors->full{return}}");
   (s_ "Json::Valueserialize_some_classconstSomeClass&some_class{Json::Valuesome_class_as_valuesome_class_as_value[""reference_other""]some_class.reference_other->idJson::Valuetarget_0Json::arrayValueconstauto&vector_0some_class.array_of_othersforinti_00i_0<vector_0.size++i_0{target_0[i_0]vector_0[i_0]->id}some_class_as_value[""array_of_others""]std::movetarget_0Json::Valuetarget_1Json::objectValueconstauto&map_1some_class.map_of_othersforconstauto&kv_1:map_1{target_1[kv_1.first]kv_1.second->id}some_class_as_value[""map_of_others""]std::movetarget_1returnsome_class_as_value}");
   (s_ "Json::Valueserialize_other_classconstOtherClass&other_class{Json::Valueother_class_as_valueother_class_as_value[""reference_some""]other_class.reference_some->idJson::Valuetarget_0Json::arrayValueconstauto&vector_0other_class.array_of_somesforinti_00i_0<vector_0.size++i_0{target_0[i_0]vector_0[i_0]->id}other_class_as_value[""array_of_somes""]std::movetarget_0Json::Valuetarget_1Json::objectValueconstauto&map_1other_class.map_of_somesforconstauto&kv_1:map_1{target_1[kv_1.first]kv_1.second->id}other_class_as_value[""map_of_somes""]std::movetarget_1returnother_class_as_value}");
   (s_ "Json::Valueserialize_some_graphconstSomeGraph&some_graph{Json::Valuesome_graph_as_valueif!some_graph.some_classes.empty{Json::Valuesome_classes_as_valueforconstauto&kv:some_graph.some_classes{conststd::string&idkv.firstconstSomeClass*instancekv.second.getifid!=instance->id{constautoexpected""Expected the class instance of SomeClassto have the ID ""constautobut_got"", but got: ""std::stringmsgmsg.reservestrlenexpected+id.size+strlenbut_got+instance->id.sizemsg+=expectedmsg+=idmsg+=but_gotmsg+=instance->idthrowstd::invalid_argumentmsg}some_classes_as_value[instance->id]serialize_some_class*instance}some_graph_as_value[""some_classes""]some_classes_as_value}if!some_graph.other_classes.empty{Json::Valueother_classes_as_valueforconstauto&kv:some_graph.other_classes{conststd::string&idkv.firstconstOtherClass*instancekv.second.getifid!=instance->id{constautoexpected""Expected the class instance of OtherClassto have the ID ""constautobut_got"", but got: ""std::stringmsgmsg.reservestrlenexpected+id.size+strlenbut_got+instance->id.sizemsg+=expectedmsg+=idmsg+=but_gotmsg+=instance->idthrowstd::invalid_argumentmsg}other_classes_as_value[instance->id]serialize_other_class*instance}some_graph_as_value[""other_classes""]other_classes_as_value}returnsome_graph_as_value}")]
  [([(s_ "value");
   (s_ "ref");
   (s_ "target");
   (s_ "errors")], [(s_ "OtherClass");
   (s_ "SomeClass");
   (s_ "errors");
   (s_ "expected_but_got");
   (s_ "instance");
   (s_ "instance_ref");
   (s_ "it");
   (s_ "message");
   (s_ "obj");
   (s_ "other_class_from");
   (s_ "other_classes_ref");
   (s_ "ref");
   (s_ "some_class_from");
   (s_ "some_classes_ref");
   (s_ "strlen");
   (s_ "target");
   (s_ "value");
   (s_ "value_type_to_string")]);
   ([(s_ "value");
   (s_ "other_classes_registry");
   (s_ "some_classes_registry");
   (s_ "ref");
   (s_ "target");
   (s_ "errors")], [(s_ "OtherClass");
   (s_ "cast_0");
   (s_ "cast_2");
   (s_ "cast_4");
   (s_ "errors");
   (s_ "expected_but_got");
   (s_ "i_1");
   (s_ "it_3");
   (s_ "item_1");
   (s_ "message");
   (s_ "other_classes_registry");
   (s_ "ref");
   (s_ "reference_not_found");
   (s_ "size_t");
   (s_ "strlen");
   (s_ "target");
   (s_ "target_1");
   (s_ "target_3");
   (s_ "value");
   (s_ "value_0");
   (s_ "value_1");
   (s_ "value_3");
   (s_ "value_4");
   (s_ "value_type_to_string")]);
   ([(s_ "value");
   (s_ "other_classes_registry");
   (s_ "some_classes_registry");
   (s_ "ref");
   (s_ "target");
   (s_ "errors")], [(s_ "SomeClass");
   (s_ "cast_0");
   (s_ "cast_2");
   (s_ "cast_4");
   (s_ "errors");
   (s_ "expected_but_got");
   (s_ "i_1");
   (s_ "it_3");
   (s_ "item_1");
   (s_ "message");
   (s_ "ref");
   (s_ "reference_not_found");
   (s_ "size_t");
   (s_ "some_classes_registry");
   (s_ "strlen");
   (s_ "target");
   (s_ "target_1");
   (s_ "target_3");
   (s_ "value");
   (s_ "value_0");
   (s_ "value_1");
   (s_ "value_3");
   (s_ "value_4");
   (s_ "value_type_to_string")]);
   ([(s_ "some_class")], [(s_ "i_0");
   (s_ "kv_1");
   (s_ "map_1");
   (s_ "some_class");
   (s_ "some_class_as_value");
   (s_ "target_0");
   (s_ "target_1");
   (s_ "vector_0")]);
   ([(s_ "other_class")], [(s_ "i_0");
   (s_ "kv_1");
   (s_ "map_1");
   (s_ "other_class");
   (s_ "other_class_as_value");
   (s_ "target_0");
   (s_ "target_1");
   (s_ "vector_0")]);
   ([(s_ "some_graph")], [(s_ "OtherClass");
   (s_ "SomeClass");
   (s_ "but_got");
   (s_ "expected");
   (s_ "id");
   (s_ "instance");
   (s_ "kv");
   (s_ "msg");
   (s_ "other_classes_as_value");
   (s_ "serialize_other_class");
   (s_ "serialize_some_class");
   (s_ "some_classes_as_value");
   (s_ "some_graph");
   (s_ "some_graph_as_value");
   (s_ "strlen")])]
  [(s_ "voidsome_graph_fromconstJson::Value&std::stringSomeGraph*parse::Errors*");
   (s_ "voidsome_class_fromconstJson::Value&conststd::map<std::stringstd::unique_ptr<OtherClass>>&conststd::map<std::stringstd::unique_ptr<SomeClass>>&std::stringSomeClass*parse::Errors*");
   (s_ "voidother_class_fromconstJson::Value&conststd::map<std::stringstd::unique_ptr<OtherClass>>&conststd::map<std::stringstd::unique_ptr<SomeClass>>&std::stringOtherClass*parse::Errors*");
   (s_ "Json::Valueserialize_some_graphconstSomeGraph&");
   (s_ "Json::Valueserialize_some_classconstSomeClass&");
   (s_ "Json::Valueserialize_other_classconstOtherClass&")]
  [(s_ "SomeClass{std::stringidOtherClass*reference_othernullptrstd::vector<OtherClass*>array_of_othersstd::map<std::stringOtherClass*>map_of_others}");
   (s_ "OtherClass{std::stringidSomeClass*reference_somenullptrstd::vector<SomeClass*>array_of_somesstd::map<std::stringSomeClass*>map_of_somes}");
   (s_ "SomeGraph{std::map<std::stringstd::unique_ptr<SomeClass>>some_classesstd::map<std::stringstd::unique_ptr<OtherClass>>other_classes}")]
  [(s_ "map");
   (s_ "memory");
   (s_ "string");
   (s_ "vector")] [(s_ "json/json.h");
   (s_ "map");
   (s_ "string")] [(s_ "cstring");
   (s_ "memory");
   (s_ "sstream");
   (s_ "stdexcept");
   (s_ "string");
   (s_ "utility")] [(s_ "string");
   (s_ "vector")].

(** test_cases/general/json_property/cpp/test_generate *)
Definition cpp_general_json_property : cpp_recorded_source :=
  CppSource
  [(s_ "voidsome_graph_fromconstJson::Value&valuestd::stringrefSomeGraph*targetparse::Errors*errors{iferrors==nullptr{throwstd::invalid_argument""Unexpected null errors""}if!errors->empty{throwstd::invalid_argument""Unexpected non-empty errors""}if!value.isObject{constautoexpected_but_got""Expected an object, but got: ""errors->addrefmessageexpected_but_gotstrlenexpected_but_gotvalue_type_to_stringvalue.typereturn}if!value.isMember""SOME-BOOL""{errors->addref""Property is missing: SOME-BOOL""}else{constJson::Value&value_0value[""SOME-BOOL""]if!value_0.isBool{constautoexpected_but_got""Expected a bool, but got: ""errors->addstd::stringref.append""/SOME-BOOL""messageexpected_but_gotstrlenexpected_but_gotvalue_type_to_stringvalue_0.type}else{target->some_boolvalue_0.asBool}}iferrors->full{return}}");
   (s_ "Json::Valueserialize_some_graphconstSomeGraph&some_graph{Json::Valuesome_graph_as_valuesome_graph_as_value[""SOME-BOOL""]some_graph.some_boolreturnsome_graph_as_value}")]
  [([(s_ "value");
   (s_ "ref");
   (s_ "target");
   (s_ "errors")], [(s_ "errors");
   (s_ "expected_but_got");
   (s_ "message");
   (s_ "ref");
   (s_ "strlen");
   (s_ "target");
   (s_ "value");
   (s_ "value_0");
   (s_ "value_type_to_string")]);
   ([(s_ "some_graph")], [(s_ "some_graph");
   (s_ "some_graph_as_value")])]
  [(s_ "voidsome_graph_fromconstJson::Value&std::stringSomeGraph*parse::Errors*");
   (s_ "Json::Valueserialize_some_graphconstSomeGraph&")]
  [(s_ "SomeGraph{boolsome_boolfalse}")]
  [] [(s_ "json/json.h")] [(s_ "cstring");
   (s_ "memory");
   (s_ "sstream");
   (s_ "stdexcept");
   (s_ "string");
   (s_ "utility")] [(s_ "string");
   (s_ "vector")].

(** test_cases/general/map/invalid_type/cpp/test_generate *)
Definition cpp_general_map_invalid_type : cpp_recorded_source :=
  CppSource
  [(s_ "voidsome_graph_fromconstJson::Value&valuestd::stringrefSomeGraph*targetparse::Errors*errors{iferrors==nullptr{throwstd::invalid_argument""Unexpected null errors""}if!errors->empty{throwstd::invalid_argument""Unexpected non-empty errors""}if!value.isObject{constautoexpected_but_got""Expected an object, but got: ""errors->addrefmessageexpected_but_gotstrlenexpected_but_gotvalue_type_to_stringvalue.typereturn}if!value.isMember""map_of_booleans""{errors->addref""Property is missing: map_of_booleans""}else{constJson::Value&value_0value[""map_of_booleans""]if!value_0.isObject{constautoexpected_but_got""Expected an object, but got: ""errors->addstd::stringref.append""/map_of_booleans""messageexpected_but_gotstrlenexpected_but_gotvalue_type_to_stringvalue_0.type}else{std::map<std::stringbool>&target_0target->map_of_booleansforJson::ValueConstIteratorit_0value_0.beginit_0!=value_0.end++it_0{constJson::Value&value_1*it_0if!value_1.isBool{constautoexpected_but_got""Expected a bool, but got: ""errors->addstd::stringref.append""/map_of_booleans"".append""/"".appendit_0.namemessageexpected_but_gotstrlenexpected_but_gotvalue_type_to_stringvalue_1.type}else{target_0[it_0.name]value_1.asBool}iferrors->full{break}}}}iferrors->full{return}}");
   (s_ "Json::Valueserialize_some_graphconstSomeGraph&some_graph{Json::Valuesome_graph_as_valueJson::Valuetarget_0Json::objectValueconstauto&map_0some_graph.map_of_booleansforconstauto&kv_0:map_0{target_0[kv_0.first]kv_0.second}some_graph_as_value[""map_of_booleans""]std::movetarget_0returnsome_graph_as_value}")]
  [([(s_ "value");
   (s_ "ref");
   (s_ "target");
   (s_ "errors")], [(s_ "errors");
   (s_ "expected_but_got");
   (s_ "it_0");
   (s_ "message");
   (s_ "ref");
   (s_ "strlen");
   (s_ "target");
   (s_ "target_0");
   (s_ "value");
   (s_ "value_0");
   (s_ "value_1");
   (s_ "value_type_to_string")]);
   ([(s_ "some_graph")], [(s_ "kv_0");
   (s_ "map_0");
   (s_ "some_graph");
   (s_ "some_graph_as_value");
   (s_ "target_0")])]
  [(s_ "voidsome_graph_fromconstJson::Value&std::stringSomeGraph*parse::Errors*");
   (s_ "Json::Valueserialize_some_graphconstSomeGraph&")]
  [(s_ "SomeGraph{std::map<std::stringbool>map_of_booleans}")]
  [(s_ "map")] [(s_ "json/json.h")] [(s_ "cstring");
   (s_ "memory");
   (s_ "sstream");
   (s_ "stdexcept");
   (s_ "string");
   (s_ "utility")] [(s_ "string");
   (s_ "vector")].

(** test_cases/general/map/of/array/cpp/test_generate *)
Definition cpp_general_map_of_array : cpp_recorded_source :=
  CppSource
  [(s_ "voidsome_graph_fromconstJson::Value&valuestd::stringrefSomeGraph*targetparse::Errors*errors{iferrors==nullptr{throwstd::invalid_argument""Unexpected null errors""}if!errors->empty{throwstd::invalid_argument""Unexpected non-empty errors""}if!value.isObject{constautoexpected_but_got""Expected an object, but got: ""errors->addrefmessageexpected_but_gotstrlenexpected_but_gotvalue_type_to_stringvalue.typereturn}if!value.isMember""map_of_arrays""{errors->addref""Property is missing: map_of_arrays""}else{constJson::Value&value_0value[""map_of_arrays""]if!value_0.isObject{constautoexpected_but_got""Expected an object, but got: ""errors->addstd::stringref.append""/map_of_arrays""messageexpected_but_gotstrlenexpected_but_gotvalue_type_to_stringvalue_0.type}else{std::map<std::stringstd::vector<bool>>&target_0target->map_of_arraysforJson::ValueConstIteratorit_0value_0.beginit_0!=value_0.end++it_0{constJson::Value&value_1*it_0if!value_1.isArray{constautoexpected_but_got""Expected an array, but got: ""errors->addstd::stringref.append""/map_of_arrays"".append""/"".appendit_0.namemessageexpected_but_gotstrlenexpected_but_gotvalue_type_to_stringvalue_1.type}else{std::vector<bool>&target_1target_0[it_0.name]target_1.resizevalue_1.sizesize_ti_10forconstJson::Value&item_1:value_1{if!item_1.isBool{constautoexpected_but_got""Expected a bool, but got: ""errors->addstd::stringref.append""/map_of_arrays"".append""/"".appendit_0.name.append""/"".appendstd::to_stringi_1messageexpected_but_gotstrlenexpected_but_gotvalue_type_to_stringitem_1.type}else{target_1.ati_1item_1.asBool}++i_1iferrors->full{break}}}iferrors->full{break}}}}iferrors->full{return}}");
   (s_ "Json::Valueserialize_some_graphconstSomeGraph&some_graph{Json::Valuesome_graph_as_valueJson::Valuetarget_0Json::objectValueconstauto&map_0some_graph.map_of_arraysforconstauto&kv_0:map_0{Json::Valuetarget_1Json::arrayValueconstauto&vector_1kv_0.secondforinti_10i_1<vector_1.size++i_1{target_1[i_1]vector_1[i_1]}target_0[kv_0.first]std::movetarget_1}some_graph_as_value[""map_of_arrays""]std::movetarget_0returnsome_graph_as_value}")]
  [([(s_ "value");
   (s_ "ref");
   (s_ "target");
   (s_ "errors")], [(s_ "errors");
   (s_ "expected_but_got");
   (s_ "i_1");
   (s_ "it_0");
   (s_ "item_1");
   (s_ "message");
   (s_ "ref");
   (s_ "size_t");
   (s_ "strlen");
   (s_ "target");
   (s_ "target_0");
   (s_ "target_1");
   (s_ "value");
   (s_ "value_0");
   (s_ "value_1");
   (s_ "value_type_to_string")]);
   ([(s_ "some_graph")], [(s_ "i_1");
   (s_ "kv_0");
   (s_ "map_0");
   (s_ "some_graph");
   (s_ "some_graph_as_value");
   (s_ "target_0");
   (s_ "target_1");
   (s_ "vector_1")])]
  [(s_ "voidsome_graph_fromconstJson::Value&std::stringSomeGraph*parse::Errors*");
   (s_ "Json::Valueserialize_some_graphconstSomeGraph&")]
  [(s_ "SomeGraph{std::map<std::stringstd::vector<bool>>map_of_arrays}")]
  [(s_ "map");
   (s_ "vector")] [(s_ "json/json.h")] [(s_ "cstring");
   (s_ "memory");
   (s_ "sstream");
   (s_ "stdexcept");
   (s_ "string");
   (s_ "utility")] [(s_ "string");
   (s_ "vector")].

(** test_cases/general/map/of/boolean/cpp/test_generate *)
Definition cpp_general_map_of_boolean : cpp_recorded_source :=
  CppSource
  [(s_ "voidsome_graph_fromconstJson::Value&valuestd::stringrefSomeGraph*targetparse::Errors*errors{iferrors==nullptr{throwstd::invalid_argument""Unexpected null errors""}if!errors->empty{throwstd::invalid_argument""Unexpected non-empty errors""}if!value.isObject{constautoexpected_but_got""Expected an object, but got: ""errors->addrefmessageexpected_but_gotstrlenexpected_but_gotvalue_type_to_stringvalue.typereturn}if!value.isMember""map_of_booleans""{errors->addref""Property is missing: map_of_booleans""}else{constJson::Value&value_0value[""map_of_booleans""]if!value_0.isObject{constautoexpected_but_got""Expected an object, but got: ""errors->addstd::stringref.append""/map_of_booleans""messageexpected_but_gotstrlenexpected_but_gotvalue_type_to_stringvalue_0.type}else{std::map<std::stringbool>&target_0target->map_of_booleansforJson::ValueConstIteratorit_0value_0.beginit_0!=value_0.end++it_0{constJson::Value&value_1*it_0if!value_1.isBool{constautoexpected_but_got""Expected a bool, but got: ""errors->addstd::stringref.append""/map_of_booleans"".append""/"".appendit_0.namemessageexpected_but_gotstrlenexpected_but_gotvalue_type_to_stringvalue_1.type}else{target_0[it_0.name]value_1.asBool}iferrors->full{break}}}}iferrors->full{return}}");
   (s_ "Json::Valueserialize_some_graphconstSomeGraph&some_graph{Json::Valuesome_graph_as_valueJson::Valuetarget_0Json::objectValueconstauto&map_0some_graph.map_of_booleansforconstauto&kv_0:map_0{target_0[kv_0.first]kv_0.second}some_graph_as_value[""map_of_booleans""]std::movetarget_0returnsome_graph_as_value}")]
  [([(s_ "value");
   (s_ "ref");
   (s_ "target");
   (s_ "errors")], [(s_ "errors");
   (s_ "expected_but_got");
   (s_ "it_0");
   (s_ "message");
   (s_ "ref");
   (s_ "strlen");
   (s_ "target");
   (s_ "target_0");
   (s_ "value");
   (s_ "value_0");
   (s_ "value_1");
   (s_ "value_type_to_string")]);
   ([(s_ "some_graph")], [(s_ "kv_0");
   (s_ "map_0");
   (s_ "some_graph");
   (s_ "some_graph_as_value");
   (s_ "target_0")])]
  [(s_ "voidsome_graph_fromconstJson::Value&std::stringSomeGraph*parse::Errors*");
   (s_ "Json::Valueserialize_some_graphconstSomeGraph&")]
  [(s_ "SomeGraph{std::map<std::stringbool>map_of_booleans}")]
  [(s_ "map")] [(s_ "json/json.h")] [(s_ "cstring");
   (s_ "memory");
   (s_ "sstream");
   (s_ "stdexcept");
   (s_ "string");
   (s_ "utility")] [(s_ "string");
   (s_ "vector")].

(** test_cases/general/map/of/class_ref/cpp/test_generate *)
Definition cpp_general_map_of_class_ref : cpp_recorded_source :=
  CppSource
  [(s_ "voidsome_graph_fromconstJson::Value&valuestd::stringrefSomeGraph*targetparse::Errors*errors{iferrors==nullptr{throwstd::invalid_argument""Unexpected null errors""}if!errors->empty{throwstd::invalid_argument""Unexpected non-empty errors""}if!value.isObject{constautoexpected_but_got""Expected an object, but got: ""errors->addrefmessageexpected_but_gotstrlenexpected_but_gotvalue_type_to_stringvalue.typereturn}std::stringempties_refempties_ref.reserveref.size+8empties_ref+=refempties_ref+=""/empties""ifvalue.isMember""empties""{constJson::Value&objvalue[""empties""]if!obj.isObject{constautoexpected_but_got""Expected an object, but got: ""errors->addempties_refmessageexpected_but_gotstrlenexpected_but_gotvalue_type_to_stringobj.type}else{forJson::ValueConstIteratoritobj.beginit!=obj.end++it{autoinstancestd::make_unique<Empty>instance->idit.nametarget->empties[it.name]std::moveinstance}}}if!errors->empty{return}std::stringinstance_refinstance_ref.clearinstance_ref+=empties_refinstance_ref+='/'ifvalue.isMember""empties""{constJson::Value&objvalue[""empties""]forJson::ValueConstIteratoritobj.beginit!=obj.end++it{instance_ref.reserveempties_ref.size+1+it.name.sizeinstance_ref.resizeempties_ref.size+1instance_ref.appendit.nameEmpty*instancetarget->empties.atit.name.getempty_from*itinstance_refinstanceerrorsiferrors->full{break}}}iferrors->full{return}if!value.isMember""map_of_class_refs""{errors->addref""Property is missing: map_of_class_refs""}else{constJson::Value&value_0value[""map_of_class_refs""]if!value_0.isObject{constautoexpected_but_got""Expected an object, but got: ""errors->addstd::stringref.append""/map_of_class_refs""messageexpected_but_gotstrlenexpected_but_gotvalue_type_to_stringvalue_0.type}else{std::map<std::stringEmpty*>&target_0target->map_of_class_refsforJson::ValueConstIteratorit_0value_0.beginit_0!=value_0.end++it_0{constJson::Value&value_1*it_0if!value_1.isString{constautoexpected_but_got""Expected a string, but got: ""errors->addstd::stringref.append""/map_of_class_refs"".append""/"".appendit_0.namemessageexpected_but_gotstrlenexpected_but_gotvalue_type_to_stringvalue_1.type}else{conststd::string&cast_1value_1.asStringiftarget->empties.countcast_1==0{constautoreference_not_found""Reference to an instance of class Empty not found: ""errors->addstd::stringref.append""/map_of_class_refs"".append""/"".appendit_0.namemessagereference_not_foundstrlenreference_not_foundcast_1}else{target_0[it_0.name]target->empties.atcast_1.get}}iferrors->full{break}}}}iferrors->full{return}}");
   (s_ "voidempty_fromconstJson::Value&valuestd::stringrefEmpty*targetparse::Errors*errors{if!value.isObject{constautoexpected_but_got""Expected an object, but got: ""errors->addrefmessageexpected_but_gotstrlenexpected_but_gotvalue_type_to_stringvalue.typereturn}}");
   (s_ "Json::Valueserialize_emptyconstEmpty&empty{returnJson::objectValue}");
   (s_ "Json::Valueserialize_some_graphconstSomeGraph&some_graph{Json::Valuesome_graph_as_valueJson::Valuetarget_0Json::objectValueconstauto&map_0some_graph.map_of_class_refsforconstauto&kv_0:map_0{target_0[kv_0.first]kv_0.second->id}some_graph_as_value[""map_of_class_refs""]std::movetarget_0if!some_graph.empties.empty{Json::Valueempties_as_valueforconstauto&kv:some_graph.empties{conststd::string&idkv.firstconstEmpty*instancekv.second.getifid!=instance->id{constautoexpected""Expected the class instance of Emptyto have the ID ""constautobut_got"", but got: ""std::stringmsgmsg.reservestrlenexpected+id.size+strlenbut_got+instance->id.sizemsg+=expectedmsg+=idmsg+=but_gotmsg+=instance->idthrowstd::invalid_argumentmsg}empties_as_value[instance->id]serialize_empty*instance}some_graph_as_value[""empties""]empties_as_value}returnsome_graph_as_value}")]
  [([(s_ "value");
   (s_ "ref");
   (s_ "target");
   (s_ "errors")], [(s_ "Empty");
   (s_ "cast_1");
   (s_ "empties_ref");
   (s_ "empty_from");
   (s_ "errors");
   (s_ "expected_but_got");
   (s_ "instance");
   (s_ "instance_ref");
   (s_ "it");
   (s_ "it_0");
   (s_ "message");
   (s_ "obj");
   (s_ "ref");
   (s_ "reference_not_found");
   (s_ "strlen");
   (s_ "target");
   (s_ "target_0");
   (s_ "value");
   (s_ "value_0");
   (s_ "value_1");
   (s_ "value_type_to_string")]);
   ([(s_ "value");
   (s_ "ref");
   (s_ "target");
   (s_ "errors")], [(s_ "errors");
   (s_ "expected_but_got");
   (s_ "message");
   (s_ "ref");
   (s_ "strlen");
   (s_ "value");
   (s_ "value_type_to_string")]);
   ([(s_ "empty")], []);
   ([(s_ "some_graph")], [(s_ "Empty");
   (s_ "but_got");
   (s_ "empties_as_value");
   (s_ "expected");
   (s_ "id");
   (s_ "instance");
   (s_ "kv");
   (s_ "kv_0");
   (s_ "map_0");
   (s_ "msg");
   (s_ "serialize_empty");
   (s_ "some_graph");
   (s_ "some_graph_as_value");
   (s_ "strlen");
   (s_ "target_0")])]
  [(s_ "voidsome_graph_fromconstJson::Value&std::stringSomeGraph*parse::Errors*");
   (s_ "voidempty_fromconstJson::Value&std::stringEmpty*parse::Errors*");
   (s_ "Json::Valueserialize_some_graphconstSomeGraph&");
   (s_ "Json::Valueserialize_emptyconstEmpty&")]
  [(s_ "Empty{std::stringid}");
   (s_ "SomeGraph{std::map<std::stringEmpty*>map_of_class_refsstd::map<std::stringstd::unique_ptr<Empty>>empties}")]
  [(s_ "map");
   (s_ "memory");
   (s_ "string")] [(s_ "json/json.h");
   (s_ "map");
   (s_ "string")] [(s_ "cstring");
   (s_ "memory");
   (s_ "sstream");
   (s_ "stdexcept");
   (s_ "string");
   (s_ "utility")] [(s_ "string");
   (s_ "vector")].

(** test_cases/general/map/of/date/cpp/test_generate *)
Definition cpp_general_map_of_date : cpp_recorded_source :=
  CppSource
  [(s_ "voidsome_graph_fromconstJson::Value&valuestd::stringrefSomeGraph*targetparse::Errors*errors{iferrors==nullptr{throwstd::invalid_argument""Unexpected null errors""}if!errors->empty{throwstd::invalid_argument""Unexpected non-empty errors""}if!value.isObject{constautoexpected_but_got""Expected an object, but got: ""errors->addrefmessageexpected_but_gotstrlenexpected_but_gotvalue_type_to_stringvalue.typereturn}if!value.isMember""map_of_dates""{errors->addref""Property is missing: map_of_dates""}else{constJson::Value&value_0value[""map_of_dates""]if!value_0.isObject{constautoexpected_but_got""Expected an object, but got: ""errors->addstd::stringref.append""/map_of_dates""messageexpected_but_gotstrlenexpected_but_gotvalue_type_to_stringvalue_0.type}else{std::map<std::stringstructtm>&target_0target->map_of_datesforJson::ValueConstIteratorit_0value_0.beginit_0!=value_0.end++it_0{constJson::Value&value_1*it_0if!value_1.isString{constautoexpected_but_got""Expected a string, but got: ""errors->addstd::stringref.append""/map_of_dates"".append""/"".appendit_0.namemessageexpected_but_gotstrlenexpected_but_gotvalue_type_to_stringvalue_1.type}else{conststd::stringcast_1value_1.asStringstructtmtm_1tm{0}char*ret_1strptimecast_1.c_str""%Y-%m-%d""&tm_1ifret_1==nullptr||*ret_1!='\0'{constautoexpected_but_got""Expected to strptime %Y-%m-%d, but got: ""errors->addstd::stringref.append""/map_of_dates"".append""/"".appendit_0.namemessageexpected_but_gotstrlenexpected_but_gotcast_1}else{target_0[it_0.name]tm_1}}iferrors->full{break}}}}iferrors->full{return}}");
   (s_ "Json::Valueserialize_some_graphconstSomeGraph&some_graph{Json::Valuesome_graph_as_valueJson::Valuetarget_0Json::objectValueconstauto&map_0some_graph.map_of_datesforconstauto&kv_0:map_0{target_0[kv_0.first]tm_to_stringkv_0.second""%Y-%m-%d""}some_graph_as_value[""map_of_dates""]std::movetarget_0returnsome_graph_as_value}")]
  [([(s_ "value");
   (s_ "ref");
   (s_ "target");
   (s_ "errors")], [(s_ "cast_1");
   (s_ "errors");
   (s_ "expected_but_got");
   (s_ "it_0");
   (s_ "message");
   (s_ "ref");
   (s_ "ret_1");
   (s_ "strlen");
   (s_ "strptime");
   (s_ "target");
   (s_ "target_0");
   (s_ "tm");
   (s_ "tm_1");
   (s_ "value");
   (s_ "value_0");
   (s_ "value_1");
   (s_ "value_type_to_string")]);
   ([(s_ "some_graph")], [(s_ "kv_0");
   (s_ "map_0");
   (s_ "some_graph");
   (s_ "some_graph_as_value");
   (s_ "target_0");
   (s_ "tm_to_string")])]
  [(s_ "voidsome_graph_fromconstJson::Value&std::stringSomeGraph*parse::Errors*");
   (s_ "Json::Valueserialize_some_graphconstSomeGraph&")]
  [(s_ "SomeGraph{std::map<std::stringstructtm>map_of_dates}")]
  [(s_ "ctime");
   (s_ "map")] [(s_ "json/json.h")] [(s_ "cstring");
   (s_ "memory");
   (s_ "sstream");
   (s_ "stdexcept");
   (s_ "string");
   (s_ "utility")] [(s_ "string");
   (s_ "vector")].

(** test_cases/general/map/of/datetime/cpp/test_generate *)
Definition cpp_general_map_of_datetime : cpp_recorded_source :=
  CppSource
  [(s_ "voidsome_graph_fromconstJson::Value&valuestd::stringrefSomeGraph*targetparse::Errors*errors{iferrors==nullptr{throwstd::invalid_argument""Unexpected null errors""}if!errors->empty{throwstd::invalid_argument""Unexpected non-empty errors""}if!value.isObject{constautoexpected_but_got""Expected an object, but got: ""errors->addrefmessageexpected_but_gotstrlenexpected_but_gotvalue_type_to_stringvalue.typereturn}if!value.isMember""map_of_datetimes""{errors->addref""Property is missing: map_of_datetimes""}else{constJson::Value&value_0value[""map_of_datetimes""]if!value_0.isObject{constautoexpected_but_got""Expected an object, but got: ""errors->addstd::stringref.append""/map_of_datetimes""messageexpected_but_gotstrlenexpected_but_gotvalue_type_to_stringvalue_0.type}else{std::map<std::stringstructtm>&target_0target->map_of_datetimesforJson::ValueConstIteratorit_0value_0.beginit_0!=value_0.end++it_0{constJson::Value&value_1*it_0if!value_1.isString{constautoexpected_but_got""Expected a string, but got: ""errors->addstd::stringref.append""/map_of_datetimes"".append""/"".appendit_0.namemessageexpected_but_gotstrlenexpected_but_gotvalue_type_to_stringvalue_1.type}else{conststd::stringcast_1value_1.asStringstructtmtm_1tm{0}char*ret_1strptimecast_1.c_str""%Y-%m-%dT%H:%M:%SZ""&tm_1ifret_1==nullptr||*ret_1!='\0'{constautoexpected_but_got""Expected to strptime %Y-%m-%dT%H:%M:%SZ, but got: ""errors->addstd::stringref.append""/map_of_datetimes"".append""/"".appendit_0.namemessageexpected_but_gotstrlenexpected_but_gotcast_1}else{target_0[it_0.name]tm_1}}iferrors->full{break}}}}iferrors->full{return}}");
   (s_ "Json::Valueserialize_some_graphconstSomeGraph&some_graph{Json::Valuesome_graph_as_valueJson::Valuetarget_0Json::objectValueconstauto&map_0some_graph.map_of_datetimesforconstauto&kv_0:map_0{target_0[kv_0.first]tm_to_stringkv_0.second""%Y-%m-%dT%H:%M:%SZ""}some_graph_as_value[""map_of_datetimes""]std::movetarget_0returnsome_graph_as_value}")]
  [([(s_ "value");
   (s_ "ref");
   (s_ "target");
   (s_ "errors")], [(s_ "cast_1");
   (s_ "errors");
   (s_ "expected_but_got");
   (s_ "it_0");
   (s_ "message");
   (s_ "ref");
   (s_ "ret_1");
   (s_ "strlen");
   (s_ "strptime");
   (s_ "target");
   (s_ "target_0");
   (s_ "tm");
   (s_ "tm_1");
   (s_ "value");
   (s_ "value_0");
   (s_ "value_1");
   (s_ "value_type_to_string")]);
   ([(s_ "some_graph")], [(s_ "kv_0");
   (s_ "map_0");
   (s_ "some_graph");
   (s_ "some_graph_as_value");
   (s_ "target_0");
   (s_ "tm_to_string")])]
  [(s_ "voidsome_graph_fromconstJson::Value&std::stringSomeGraph*parse::Errors*");
   (s_ "Json::Valueserialize_some_graphconstSomeGraph&")]
  [(s_ "SomeGraph{std::map<std::stringstructtm>map_of_datetimes}")]
  [(s_ "ctime");
   (s_ "map")] [(s_ "json/json.h")] [(s_ "cstring");
   (s_ "memory");
   (s_ "sstream");
   (s_ "stdexcept");
   (s_ "string");
   (s_ "utility")] [(s_ "string");
   (s_ "vector")].

(** test_cases/general/map/of/duration/cpp/test_generate *)
Definition cpp_general_map_of_duration : cpp_recorded_source :=
  CppSource
  [(s_ "voidsome_graph_fromconstJson::Value&valuestd::stringrefSomeGraph*targetparse::Errors*errors{iferrors==nullptr{throwstd::invalid_argument""Unexpected null errors""}if!errors->empty{throwstd::invalid_argument""Unexpected non-empty errors""}if!value.isObject{constautoexpected_but_got""Expected an object, but got: ""errors->addrefmessageexpected_but_gotstrlenexpected_but_gotvalue_type_to_stringvalue.typereturn}if!value.isMember""map_of_durations""{errors->addref""Property is missing: map_of_durations""}else{constJson::Value&value_0value[""map_of_durations""]if!value_0.isObject{constautoexpected_but_got""Expected an object, but got: ""errors->addstd::stringref.append""/map_of_durations""messageexpected_but_gotstrlenexpected_but_gotvalue_type_to_stringvalue_0.type}else{std::map<std::stringstd::chrono::nanoseconds>&target_0target->map_of_durationsforJson::ValueConstIteratorit_0value_0.beginit_0!=value_0.end++it_0{constJson::Value&value_1*it_0if!value_1.isString{constautoexpected_but_got""Expected a string, but got: ""errors->addstd::stringref.append""/map_of_durations"".append""/"".appendit_0.namemessageexpected_but_gotstrlenexpected_but_gotvalue_type_to_stringvalue_1.type}else{conststd::stringcast_1_strvalue_1.asStringstd::stringerror_1std::chrono::nanosecondscast_1duration_from_stringcast_1_str&error_1if!error_1.empty{constautoinvalid_duration""Invalid duration: ""errors->addstd::stringref.append""/map_of_durations"".append""/"".appendit_0.namemessageinvalid_durationstrleninvalid_durationerror_1}else{target_0[it_0.name]cast_1}}iferrors->full{break}}}}iferrors->full{return}}");
   (s_ "Json::Valueserialize_some_graphconstSomeGraph&some_graph{Json::Valuesome_graph_as_valueJson::Valuetarget_0Json::objectValueconstauto&map_0some_graph.map_of_durationsforconstauto&kv_0:map_0{target_0[kv_0.first]duration_to_stringkv_0.second}some_graph_as_value[""map_of_durations""]std::movetarget_0returnsome_graph_as_value}")]
  [([(s_ "value");
   (s_ "ref");
   (s_ "target");
   (s_ "errors")], [(s_ "cast_1");
   (s_ "cast_1_str");
   (s_ "duration_from_string");
   (s_ "error_1");
   (s_ "errors");
   (s_ "expected_but_got");
   (s_ "invalid_duration");
   (s_ "it_0");
   (s_ "message");
   (s_ "ref");
   (s_ "strlen");
   (s_ "target");
   (s_ "target_0");
   (s_ "value");
   (s_ "value_0");
   (s_ "value_1");
   (s_ "value_type_to_string")]);
   ([(s_ "some_graph")], [(s_ "duration_to_string");
   (s_ "kv_0");
   (s_ "map_0");
   (s_ "some_graph");
   (s_ "some_graph_as_value");
   (s_ "target_0")])]
  [(s_ "voidsome_graph_fromconstJson::Value&std::stringSomeGraph*parse::Errors*");
   (s_ "Json::Valueserialize_some_graphconstSomeGraph&")]
  [(s_ "SomeGraph{std::map<std::stringstd::chrono::nanoseconds>map_of_durations}")]
  [(s_ "chrono");
   (s_ "map")] [(s_ "json/json.h")] [(s_ "cmath");
   (s_ "cstring");
   (s_ "iomanip");
   (s_ "limits");
   (s_ "memory");
   (s_ "regex");
   (s_ "sstream");
   (s_ "stdexcept");
   (s_ "string");
   (s_ "utility")] [(s_ "string");
   (s_ "vector")].

(** test_cases/general/map/of/embed/cpp/test_generate *)
Definition cpp_general_map_of_embed : cpp_recorded_source :=
  CppSource
  [(s_ "voidsome_graph_fromconstJson::Value&valuestd::stringrefSomeGraph*targetparse::Errors*errors{iferrors==nullptr{throwstd::invalid_argument""Unexpected null errors""}if!errors->empty{throwstd::invalid_argument""Unexpected non-empty errors""}if!value.isObject{constautoexpected_but_got""Expected an object, but got: ""errors->addrefmessageexpected_but_gotstrlenexpected_but_gotvalue_type_to_stringvalue.typereturn}if!value.isMember""map_of_embeds""{errors->addref""Property is missing: map_of_embeds""}else{constJson::Value&value_0value[""map_of_embeds""]if!value_0.isObject{constautoexpected_but_got""Expected an object, but got: ""errors->addstd::stringref.append""/map_of_embeds""messageexpected_but_gotstrlenexpected_but_gotvalue_type_to_stringvalue_0.type}else{std::map<std::stringSomeEmbed>&target_0target->map_of_embedsforJson::ValueConstIteratorit_0value_0.beginit_0!=value_0.end++it_0{constJson::Value&value_1*it_0someembed_fromvalue_1std::stringref.append""/map_of_embeds"".append""/"".appendit_0.name&target_0[it_0.name]errorsiferrors->full{break}}}}iferrors->full{return}}");
   (s_ "voidsomeembed_fromconstJson::Value&valuestd::stringrefSomeEmbed*targetparse::Errors*errors{if!value.isObject{constautoexpected_but_got""Expected an object, but got: ""errors->addrefmessageexpected_but_gotstrlenexpected_but_gotvalue_type_to_stringvalue.typereturn}if!value.isMember""some_property""{errors->addref""Property is missing: some_property""}else{constJson::Value&value_0value[""some_property""]if!value_0.isBool{constautoexpected_but_got""Expected a bool, but got: ""errors->addstd::stringref.append""/some_property""messageexpected_but_gotstrlenexpected_but_gotvalue_type_to_stringvalue_0.type}else{target->some_propertyvalue_0.asBool}}iferrors->full{return}}");
   (s_ "Json::Valueserialize_someembedconstSomeEmbed&someembed{Json::Valuesomeembed_as_valuesomeembed_as_value[""some_property""]someembed.some_propertyreturnsomeembed_as_value}");
   (s_ "Json::Valueserialize_some_graphconstSomeGraph&some_graph{Json::Valuesome_graph_as_valueJson::Valuetarget_0Json::objectValueconstauto&map_0some_graph.map_of_embedsforconstauto&kv_0:map_0{target_0[kv_0.first]serialize_someembedkv_0.second}some_graph_as_value[""map_of_embeds""]std::movetarget_0returnsome_graph_as_value}")]
  [([(s_ "value");
   (s_ "ref");
   (s_ "target");
   (s_ "errors")], [(s_ "SomeEmbed");
   (s_ "errors");
   (s_ "expected_but_got");
   (s_ "it_0");
   (s_ "message");
   (s_ "ref");
   (s_ "someembed_from");
   (s_ "strlen");
   (s_ "target");
   (s_ "target_0");
   (s_ "value");
   (s_ "value_0");
   (s_ "value_1");
   (s_ "value_type_to_string")]);
   ([(s_ "value");
   (s_ "ref");
   (s_ "target");
   (s_ "errors")], [(s_ "errors");
   (s_ "expected_but_got");
   (s_ "message");
   (s_ "ref");
   (s_ "strlen");
   (s_ "target");
   (s_ "value");
   (s_ "value_0");
   (s_ "value_type_to_string")]);
   ([(s_ "someembed")], [(s_ "someembed");
   (s_ "someembed_as_value")]);
   ([(s_ "some_graph")], [(s_ "kv_0");
   (s_ "map_0");
   (s_ "serialize_someembed");
   (s_ "some_graph");
   (s_ "some_graph_as_value");
   (s_ "target_0")])]
  [(s_ "voidsome_graph_fromconstJson::Value&std::stringSomeGraph*parse::Errors*");
   (s_ "voidsomeembed_fromconstJson::Value&std::stringSomeEmbed*parse::Errors*");
   (s_ "Json::Valueserialize_some_graphconstSomeGraph&");
   (s_ "Json::Valueserialize_someembedconstSomeEmbed&")]
  [(s_ "SomeEmbed{boolsome_propertyfalse}");
   (s_ "SomeGraph{std::map<std::stringSomeEmbed>map_of_embeds}")]
  [(s_ "map")] [(s_ "json/json.h")] [(s_ "cstring");
   (s_ "memory");
   (s_ "sstream");
   (s_ "stdexcept");
   (s_ "string");
   (s_ "utility")] [(s_ "string");
   (s_ "vector")].

(** test_cases/general/map/of/float/cpp/test_generate *)
Definition cpp_general_map_of_float : cpp_recorded_source :=
  CppSource
  [(s_ "voidsome_graph_fromconstJson::Value&valuestd::stringrefSomeGraph*targetparse::Errors*errors{iferrors==nullptr{throwstd::invalid_argument""Unexpected null errors""}if!errors->empty{throwstd::invalid_argument""Unexpected non-empty errors""}if!value.isObject{constautoexpected_but_got""Expected an object, but got: ""errors->addrefmessageexpected_but_gotstrlenexpected_but_gotvalue_type_to_stringvalue.typereturn}if!value.isMember""map_of_floats""{errors->addref""Property is missing: map_of_floats""}else{constJson::Value&value_0value[""map_of_floats""]if!value_0.isObject{constautoexpected_but_got""Expected an object, but got: ""errors->addstd::stringref.append""/map_of_floats""messageexpected_but_gotstrlenexpected_but_gotvalue_type_to_stringvalue_0.type}else{std::map<std::stringdouble>&target_0target->map_of_floatsforJson::ValueConstIteratorit_0value_0.beginit_0!=value_0.end++it_0{constJson::Value&value_1*it_0if!value_1.isDouble{constautoexpected_but_got""Expected a double, but got: ""errors->addstd::stringref.append""/map_of_floats"".append""/"".appendit_0.namemessageexpected_but_gotstrlenexpected_but_gotvalue_type_to_stringvalue_1.type}else{target_0[it_0.name]value_1.asDouble}iferrors->full{break}}}}iferrors->full{return}}");
   (s_ "Json::Valueserialize_some_graphconstSomeGraph&some_graph{Json::Valuesome_graph_as_valueJson::Valuetarget_0Json::objectValueconstauto&map_0some_graph.map_of_floatsforconstauto&kv_0:map_0{target_0[kv_0.first]kv_0.second}some_graph_as_value[""map_of_floats""]std::movetarget_0returnsome_graph_as_value}")]
  [([(s_ "value");
   (s_ "ref");
   (s_ "target");
   (s_ "errors")], [(s_ "errors");
   (s_ "expected_but_got");
   (s_ "it_0");
   (s_ "message");
   (s_ "ref");
   (s_ "strlen");
   (s_ "target");
   (s_ "target_0");
   (s_ "value");
   (s_ "value_0");
   (s_ "value_1");
   (s_ "value_type_to_string")]);
   ([(s_ "some_graph")], [(s_ "kv_0");
   (s_ "map_0");
   (s_ "some_graph");
   (s_ "some_graph_as_value");
   (s_ "target_0")])]
  [(s_ "voidsome_graph_fromconstJson::Value&std::stringSomeGraph*parse::Errors*");
   (s_ "Json::Valueserialize_some_graphconstSomeGraph&")]
  [(s_ "SomeGraph{std::map<std::stringdouble>map_of_floats}")]
  [(s_ "map")] [(s_ "json/json.h")] [(s_ "cstring");
   (s_ "memory");
   (s_ "sstream");
   (s_ "stdexcept");
   (s_ "string");
   (s_ "utility")] [(s_ "string");
   (s_ "vector")].

(** test_cases/general/map/of/integer/cpp/test_generate *)
Definition cpp_general_map_of_integer : cpp_recorded_source :=
  CppSource
  [(s_ "voidsome_graph_fromconstJson::Value&valuestd::stringrefSomeGraph*targetparse::Errors*errors{iferrors==nullptr{throwstd::invalid_argument""Unexpected null errors""}if!errors->empty{throwstd::invalid_argument""Unexpected non-empty errors""}if!value.isObject{constautoexpected_but_got""Expected an object, but got: ""errors->addrefmessageexpected_but_gotstrlenexpected_but_gotvalue_type_to_stringvalue.typereturn}if!value.isMember""map_of_integers""{errors->addref""Property is missing: map_of_integers""}else{constJson::Value&value_0value[""map_of_integers""]if!value_0.isObject{constautoexpected_but_got""Expected an object, but got: ""errors->addstd::stringref.append""/map_of_integers""messageexpected_but_gotstrlenexpected_but_gotvalue_type_to_stringvalue_0.type}else{std::map<std::stringint64_t>&target_0target->map_of_integersforJson::ValueConstIteratorit_0value_0.beginit_0!=value_0.end++it_0{constJson::Value&value_1*it_0if!value_1.isInt64{constautoexpected_but_got""Expected an int64, but got: ""errors->addstd::stringref.append""/map_of_integers"".append""/"".appendit_0.namemessageexpected_but_gotstrlenexpected_but_gotvalue_type_to_stringvalue_1.type}else{target_0[it_0.name]value_1.asInt64}iferrors->full{break}}}}iferrors->full{return}}");
   (s_ "Json::Valueserialize_some_graphconstSomeGraph&some_graph{Json::Valuesome_graph_as_valueJson::Valuetarget_0Json::objectValueconstauto&map_0some_graph.map_of_integersforconstauto&kv_0:map_0{target_0[kv_0.first]kv_0.second}some_graph_as_value[""map_of_integers""]std::movetarget_0returnsome_graph_as_value}")]
  [([(s_ "value");
   (s_ "ref");
   (s_ "target");
   (s_ "errors")], [(s_ "errors");
   (s_ "expected_but_got");
   (s_ "int64_t");
   (s_ "it_0");
   (s_ "message");
   (s_ "ref");
   (s_ "strlen");
   (s_ "target");
   (s_ "target_0");
   (s_ "value");
   (s_ "value_0");
   (s_ "value_1");
   (s_ "value_type_to_string")]);
   ([(s_ "some_graph")], [(s_ "kv_0");
   (s_ "map_0");
   (s_ "some_graph");
   (s_ "some_graph_as_value");
   (s_ "target_0")])]
  [(s_ "voidsome_graph_fromconstJson::Value&std::stringSomeGraph*parse::Errors*");
   (s_ "Json::Valueserialize_some_graphconstSomeGraph&")]
  [(s_ "SomeGraph{std::map<std::stringint64_t>map_of_integers}")]
  [(s_ "cstdint");
   (s_ "map")] [(s_ "json/json.h")] [(s_ "cstring");
   (s_ "memory");
   (s_ "sstream");
   (s_ "stdexcept");
   (s_ "string");
   (s_ "utility")] [(s_ "string");
   (s_ "vector")].

(** test_cases/general/map/of/map/cpp/test_generate *)
Definition cpp_general_map_of_map : cpp_recorded_source :=
  CppSource
  [(s_ "voidsome_graph_fromconstJson::Value&valuestd::stringrefSomeGraph*targetparse::Errors*errors{iferrors==nullptr{throwstd::invalid_argument""Unexpected null errors""}if!errors->empty{throwstd::invalid_argument""Unexpected non-empty errors""}if!value.isObject{constautoexpected_but_got""Expected an object, but got: ""errors->addrefmessageexpected_but_gotstrlenexpected_but_gotvalue_type_to_stringvalue.typereturn}if!value.isMember""map_of_maps""{errors->addref""Property is missing: map_of_maps""}else{constJson::Value&value_0value[""map_of_maps""]if!value_0.isObject{constautoexpected_but_got""Expected an object, but got: ""errors->addstd::stringref.append""/map_of_maps""messageexpected_but_gotstrlenexpected_but_gotvalue_type_to_stringvalue_0.type}else{std::map<std::stringstd::map<std::stringbool>>&target_0target->map_of_mapsforJson::ValueConstIteratorit_0value_0.beginit_0!=value_0.end++it_0{constJson::Value&value_1*it_0if!value_1.isObject{constautoexpected_but_got""Expected an object, but got: ""errors->addstd::stringref.append""/map_of_maps"".append""/"".appendit_0.namemessageexpected_but_gotstrlenexpected_but_gotvalue_type_to_stringvalue_1.type}else{std::map<std::stringbool>&target_1target_0[it_0.name]forJson::ValueConstIteratorit_1value_1.beginit_1!=value_1.end++it_1{constJson::Value&value_2*it_1if!value_2.isBool{constautoexpected_but_got""Expected a bool, but got: ""errors->addstd::stringref.append""/map_of_maps"".append""/"".appendit_0.name.append""/"".appendit_1.namemessageexpected_but_gotstrlenexpected_but_gotvalue_type_to_stringvalue_2.type}else{target_1[it_1.name]value_2.asBool}iferrors->full{break}}}iferrors->full{break}}}}iferrors->full{return}}");
   (s_ "Json::Valueserialize_some_graphconstSomeGraph&some_graph{Json::Valuesome_graph_as_valueJson::Valuetarget_0Json::objectValueconstauto&map_0some_graph.map_of_mapsforconstauto&kv_0:map_0{Json::Valuetarget_1Json::objectValueconstauto&map_1kv_0.secondforconstauto&kv_1:map_1{target_1[kv_1.first]kv_1.second}target_0[kv_0.first]std::movetarget_1}some_graph_as_value[""map_of_maps""]std::movetarget_0returnsome_graph_as_value}")]
  [([(s_ "value");
   (s_ "ref");
   (s_ "target");
   (s_ "errors")], [(s_ "errors");
   (s_ "expected_but_got");
   (s_ "it_0");
   (s_ "it_1");
   (s_ "message");
   (s_ "ref");
   (s_ "strlen");
   (s_ "target");
   (s_ "target_0");
   (s_ "target_1");
   (s_ "value");
   (s_ "value_0");
   (s_ "value_1");
   (s_ "value_2");
   (s_ "value_type_to_string")]);
   ([(s_ "some_graph")], [(s_ "kv_0");
   (s_ "kv_1");
   (s_ "map_0");
   (s_ "map_1");
   (s_ "some_graph");
   (s_ "some_graph_as_value");
   (s_ "target_0");
   (s_ "target_1")])]
  [(s_ "voidsome_graph_fromconstJson::Value&std::stringSomeGraph*parse::Errors*");
   (s_ "Json::Valueserialize_some_graphconstSomeGraph&")]
  [(s_ "SomeGraph{std::map<std::stringstd::map<std::stringbool>>map_of_maps}")]
  [(s_ "map")] [(s_ "json/json.h")] [(s_ "cstring");
   (s_ "memory");
   (s_ "sstream");
   (s_ "stdexcept");
   (s_ "string");
   (s_ "utility")] [(s_ "string");
   (s_ "vector")].

(** test_cases/general/map/of/path/cpp/test_generate *)
Definition cpp_general_map_of_path : cpp_recorded_source :=
  CppSource
  [(s_ "voidsome_graph_fromconstJson::Value&valuestd::stringrefSomeGraph*targetparse::Errors*errors{iferrors==nullptr{throwstd::invalid_argument""Unexpected null errors""}if!errors->empty{throwstd::invalid_argument""Unexpected non-empty errors""}if!value.isObject{constautoexpected_but_got""Expected an object, but got: ""errors->addrefmessageexpected_but_gotstrlenexpected_but_gotvalue_type_to_stringvalue.typereturn}if!value.isMember""map_of_paths""{errors->addref""Property is missing: map_of_paths""}else{constJson::Value&value_0value[""map_of_paths""]if!value_0.isObject{constautoexpected_but_got""Expected an object, but got: ""errors->addstd::stringref.append""/map_of_paths""messageexpected_but_gotstrlenexpected_but_gotvalue_type_to_stringvalue_0.type}else{std::map<std::stringboost::filesystem::path>&target_0target->map_of_pathsforJson::ValueConstIteratorit_0value_0.beginit_0!=value_0.end++it_0{constJson::Value&value_1*it_0if!value_1.isString{constautoexpected_but_got""Expected a string, but got: ""errors->addstd::stringref.append""/map_of_paths"".append""/"".appendit_0.namemessageexpected_but_gotstrlenexpected_but_gotvalue_type_to_stringvalue_1.type}else{target_0[it_0.name]boost::filesystem::pathvalue_1.asString}iferrors->full{break}}}}iferrors->full{return}}");
   (s_ "Json::Valueserialize_some_graphconstSomeGraph&some_graph{Json::Valuesome_graph_as_valueJson::Valuetarget_0Json::objectValueconstauto&map_0some_graph.map_of_pathsforconstauto&kv_0:map_0{target_0[kv_0.first]kv_0.second.string}some_graph_as_value[""map_of_paths""]std::movetarget_0returnsome_graph_as_value}")]
  [([(s_ "value");
   (s_ "ref");
   (s_ "target");
   (s_ "errors")], [(s_ "errors");
   (s_ "expected_but_got");
   (s_ "it_0");
   (s_ "message");
   (s_ "ref");
   (s_ "strlen");
   (s_ "target");
   (s_ "target_0");
   (s_ "value");
   (s_ "value_0");
   (s_ "value_1");
   (s_ "value_type_to_string")]);
   ([(s_ "some_graph")], [(s_ "kv_0");
   (s_ "map_0");
   (s_ "some_graph");
   (s_ "some_graph_as_value");
   (s_ "target_0")])]
  [(s_ "voidsome_graph_fromconstJson::Value&std::stringSomeGraph*parse::Errors*");
   (s_ "Json::Valueserialize_some_graphconstSomeGraph&")]
  [(s_ "SomeGraph{std::map<std::stringboost::filesystem::path>map_of_paths}")]
  [(s_ "boost/filesystem/path.hpp");
   (s_ "map")] [(s_ "boost/filesystem/path.hpp");
   (s_ "json/json.h")] [(s_ "cstring");
   (s_ "memory");
   (s_ "sstream");
   (s_ "stdexcept");
   (s_ "string");
   (s_ "utility")] [(s_ "string");
   (s_ "vector")].

(** test_cases/general/map/of/string/cpp/test_generate *)
Definition cpp_general_map_of_string : cpp_recorded_source :=
  CppSource
  [(s_ "voidsome_graph_fromconstJson::Value&valuestd::stringrefSomeGraph*targetparse::Errors*errors{iferrors==nullptr{throwstd::invalid_argument""Unexpected null errors""}if!errors->empty{throwstd::invalid_argument""Unexpected non-empty errors""}if!value.isObject{constautoexpected_but_got""Expected an object, but got: ""errors->addrefmessageexpected_but_gotstrlenexpected_but_gotvalue_type_to_stringvalue.typereturn}if!value.isMember""map_of_strings""{errors->addref""Property is missing: map_of_strings""}else{constJson::Value&value_0value[""map_of_strings""]if!value_0.isObject{constautoexpected_but_got""Expected an object, but got: ""errors->addstd::stringref.append""/map_of_strings""messageexpected_but_gotstrlenexpected_but_gotvalue_type_to_stringvalue_0.type}else{std::map<std::stringstd::string>&target_0target->map_of_stringsforJson::ValueConstIteratorit_0value_0.beginit_0!=value_0.end++it_0{constJson::Value&value_1*it_0if!value_1.isString{constautoexpected_but_got""Expected a string, but got: ""errors->addstd::stringref.append""/map_of_strings"".append""/"".appendit_0.namemessageexpected_but_gotstrlenexpected_but_gotvalue_type_to_stringvalue_1.type}else{conststd::regexregex_1""^hello.*$""conststd::stringcast_1value_1.asStringboolok_1trueif!std::regex_matchcast_1regex_1{constautoexpected_but_got""Expected to match ^hello.*$, but got: ""errors->addstd::stringref.append""/map_of_strings"".append""/"".appendit_0.namemessageexpected_but_gotstrlenexpected_but_gotcast_1ok_1false}ifok_1{target_0[it_0.name]cast_1}}iferrors->full{break}}}}iferrors->full{return}}");
   (s_ "Json::Valueserialize_some_graphconstSomeGraph&some_graph{Json::Valuesome_graph_as_valueJson::Valuetarget_0Json::objectValueconstauto&map_0some_graph.map_of_stringsforconstauto&kv_0:map_0{target_0[kv_0.first]kv_0.second}some_graph_as_value[""map_of_strings""]std::movetarget_0returnsome_graph_as_value}")]
  [([(s_ "value");
   (s_ "ref");
   (s_ "target");
   (s_ "errors")], [(s_ "cast_1");
   (s_ "errors");
   (s_ "expected_but_got");
   (s_ "it_0");
   (s_ "message");
   (s_ "ok_1");
   (s_ "ref");
   (s_ "regex_1");
   (s_ "strlen");
   (s_ "target");
   (s_ "target_0");
   (s_ "value");
   (s_ "value_0");
   (s_ "value_1");
   (s_ "value_type_to_string")]);
   ([(s_ "some_graph")], [(s_ "kv_0");
   (s_ "map_0");
   (s_ "some_graph");
   (s_ "some_graph_as_value");
   (s_ "target_0")])]
  [(s_ "voidsome_graph_fromconstJson::Value&std::stringSomeGraph*parse::Errors*");
   (s_ "Json::Valueserialize_some_graphconstSomeGraph&")]
  [(s_ "SomeGraph{std::map<std::stringstd::string>map_of_strings}")]
  [(s_ "map");
   (s_ "string")] [(s_ "json/json.h");
   (s_ "string")] [(s_ "cstring");
   (s_ "memory");
   (s_ "regex");
   (s_ "sstream");
   (s_ "stdexcept");
   (s_ "string");
   (s_ "utility")] [(s_ "string");
   (s_ "vector")].

(** test_cases/general/map/of/time_zone/cpp/test_generate *)
Definition cpp_general_map_of_time_zone : cpp_recorded_source :=
  CppSource
  [(s_ "voidsome_graph_fromconstJson::Value&valuestd::stringrefSomeGraph*targetparse::Errors*errors{iferrors==nullptr{throwstd::invalid_argument""Unexpected null errors""}if!errors->empty{throwstd::invalid_argument""Unexpected non-empty errors""}if!value.isObject{constautoexpected_but_got""Expected an object, but got: ""errors->addrefmessageexpected_but_gotstrlenexpected_but_gotvalue_type_to_stringvalue.typereturn}if!value.isMember""map_of_time_zones""{errors->addref""Property is missing: map_of_time_zones""}else{constJson::Value&value_0value[""map_of_time_zones""]if!value_0.isObject{constautoexpected_but_got""Expected an object, but got: ""errors->addstd::stringref.append""/map_of_time_zones""messageexpected_but_gotstrlenexpected_but_gotvalue_type_to_stringvalue_0.type}else{std::map<std::stringstd::string>&target_0target->map_of_time_zonesforJson::ValueConstIteratorit_0value_0.beginit_0!=value_0.end++it_0{constJson::Value&value_1*it_0if!value_1.isString{constautoexpected_but_got""Expected a string, but got: ""errors->addstd::stringref.append""/map_of_time_zones"".append""/"".appendit_0.namemessageexpected_but_gotstrlenexpected_but_gotvalue_type_to_stringvalue_1.type}else{target_0[it_0.name]value_1.asString}iferrors->full{break}}}}iferrors->full{return}}");
   (s_ "Json::Valueserialize_some_graphconstSomeGraph&some_graph{Json::Valuesome_graph_as_valueJson::Valuetarget_0Json::objectValueconstauto&map_0some_graph.map_of_time_zonesforconstauto&kv_0:map_0{target_0[kv_0.first]kv_0.second}some_graph_as_value[""map_of_time_zones""]std::movetarget_0returnsome_graph_as_value}")]
  [([(s_ "value");
   (s_ "ref");
   (s_ "target");
   (s_ "errors")], [(s_ "errors");
   (s_ "expected_but_got");
   (s_ "it_0");
   (s_ "message");
   (s_ "ref");
   (s_ "strlen");
   (s_ "target");
   (s_ "target_0");
   (s_ "value");
   (s_ "value_0");
   (s_ "value_1");
   (s_ "value_type_to_string")]);
   ([(s_ "some_graph")], [(s_ "kv_0");
   (s_ "map_0");
   (s_ "some_graph");
   (s_ "some_graph_as_value");
   (s_ "target_0")])]
  [(s_ "voidsome_graph_fromconstJson::Value&std::stringSomeGraph*parse::Errors*");
   (s_ "Json::Valueserialize_some_graphconstSomeGraph&")]
  [(s_ "SomeGraph{std::map<std::stringstd::string>map_of_time_zones}")]
  [(s_ "map");
   (s_ "string")] [(s_ "json/json.h")] [(s_ "cstring");
   (s_ "memory");
   (s_ "sstream");
   (s_ "stdexcept");
   (s_ "string");
   (s_ "utility")] [(s_ "string");
   (s_ "vector")].

(** test_cases/general/optional_in_class/cpp/test_generate *)
Definition cpp_general_optional_in_class : cpp_recorded_source :=
  CppSource
  [(s_ "voidsome_graph_fromconstJson::Value&valuestd::stringrefSomeGraph*targetparse::Errors*errors{iferrors==nullptr{throwstd::invalid_argument""Unexpected null errors""}if!errors->empty{throwstd::invalid_argument""Unexpected non-empty errors""}if!value.isObject{constautoexpected_but_got""Expected an object, but got: ""errors->addrefmessageexpected_but_gotstrlenexpected_but_gotvalue_type_to_stringvalue.typereturn}std::stringwith_optionals_refwith_optionals_ref.reserveref.size+15with_optionals_ref+=refwith_optionals_ref+=""/with_optionals""ifvalue.isMember""with_optionals""{constJson::Value&objvalue[""with_optionals""]if!obj.isObject{constautoexpected_but_got""Expected an object, but got: ""errors->addwith_optionals_refmessageexpected_but_gotstrlenexpected_but_gotvalue_type_to_stringobj.type}else{forJson::ValueConstIteratoritobj.beginit!=obj.end++it{autoinstancestd::make_unique<WithOptional>instance->idit.nametarget->with_optionals[it.name]std::moveinstance}}}if!errors->empty{return}std::stringinstance_refinstance_ref.clearinstance_ref+=with_optionals_refinstance_ref+='/'ifvalue.isMember""with_optionals""{constJson::Value&objvalue[""with_optionals""]forJson::ValueConstIteratoritobj.beginit!=obj.end++it{instance_ref.reservewith_optionals_ref.size+1+it.name.sizeinstance_ref.resizewith_optionals_ref.size+1instance_ref.appendit.nameWithOptional*instancetarget->with_optionals.atit.name.getwith_optional_from*itinstance_refinstanceerrorsiferrors->full{break}}}iferrors->full{return}}");
   (s_ "voidwith_optional_fromconstJson::Value&valuestd::stringrefWithOptional*targetparse::Errors*errors{if!value.isObject{constautoexpected_but_got""Expected an object, but got: ""errors->addrefmessageexpected_but_gotstrlenexpected_but_gotvalue_type_to_stringvalue.typereturn}ifvalue.isMember""some_text""{constJson::Value&value_0value[""some_text""]if!value_0.isString{constautoexpected_but_got""Expected a string, but got: ""errors->addstd::stringref.append""/some_text""messageexpected_but_gotstrlenexpected_but_gotvalue_type_to_stringvalue_0.type}else{target->some_textvalue_0.asString}}iferrors->full{return}}");
   (s_ "Json::Valueserialize_with_optionalconstWithOptional&with_optional{Json::Valuewith_optional_as_valueifwith_optional.some_text{with_optional_as_value[""some_text""]*with_optional.some_text}returnwith_optional_as_value}");
   (s_ "Json::Valueserialize_some_graphconstSomeGraph&some_graph{Json::Valuesome_graph_as_valueif!some_graph.with_optionals.empty{Json::Valuewith_optionals_as_valueforconstauto&kv:some_graph.with_optionals{conststd::string&idkv.firstconstWithOptional*instancekv.second.getifid!=instance->id{constautoexpected""Expected the class instance of WithOptionalto have the ID ""constautobut_got"", but got: ""std::stringmsgmsg.reservestrlenexpected+id.size+strlenbut_got+instance->id.sizemsg+=expectedmsg+=idmsg+=but_gotmsg+=instance->idthrowstd::invalid_argumentmsg}with_optionals_as_value[instance->id]serialize_with_optional*instance}some_graph_as_value[""with_optionals""]with_optionals_as_value}returnsome_graph_as_value}")]
  [([(s_ "value");
   (s_ "ref");
   (s_ "target");
   (s_ "errors")], [(s_ "WithOptional");
   (s_ "errors");
   (s_ "expected_but_got");
   (s_ "instance");
   (s_ "instance_ref");
   (s_ "it");
   (s_ "message");
   (s_ "obj");
   (s_ "ref");
   (s_ "strlen");
   (s_ "target");
   (s_ "value");
   (s_ "value_type_to_string");
   (s_ "with_optional_from");
   (s_ "with_optionals_ref")]);
   ([(s_ "value");
   (s_ "ref");
   (s_ "target");
   (s_ "errors")], [(s_ "errors");
   (s_ "expected_but_got");
   (s_ "message");
   (s_ "ref");
   (s_ "strlen");
   (s_ "target");
   (s_ "value");
   (s_ "value_0");
   (s_ "value_type_to_string")]);
   ([(s_ "with_optional")], [(s_ "with_optional");
   (s_ "with_optional_as_value")]);
   ([(s_ "some_graph")], [(s_ "WithOptional");
   (s_ "but_got");
   (s_ "expected");
   (s_ "id");
   (s_ "instance");
   (s_ "kv");
   (s_ "msg");
   (s_ "serialize_with_optional");
   (s_ "some_graph");
   (s_ "some_graph_as_value");
   (s_ "strlen");
   (s_ "with_optionals_as_value")])]
  [(s_ "voidsome_graph_fromconstJson::Value&std::stringSomeGraph*parse::Errors*");
   (s_ "voidwith_optional_fromconstJson::Value&std::stringWithOptional*parse::Errors*");
   (s_ "Json::Valueserialize_some_graphconstSomeGraph&");
   (s_ "Json::Valueserialize_with_optionalconstWithOptional&")]
  [(s_ "WithOptional{std::stringidstd::experimental::optional<std::string>some_text}");
   (s_ "SomeGraph{std::map<std::stringstd::unique_ptr<WithOptional>>with_optionals}")]
  [(s_ "optional.hpp");
   (s_ "map");
   (s_ "memory");
   (s_ "string")] [(s_ "json/json.h");
   (s_ "optional.hpp");
   (s_ "map");
   (s_ "string")] [(s_ "cstring");
   (s_ "memory");
   (s_ "sstream");
   (s_ "stdexcept");
   (s_ "string");
   (s_ "utility")] [(s_ "string");
   (s_ "vector")].

(** test_cases/general/optional_in_embed/cpp/test_generate *)
Definition cpp_general_optional_in_embed : cpp_recorded_source :=
  CppSource
  [(s_ "voidsome_graph_fromconstJson::Value&valuestd::stringrefSomeGraph*targetparse::Errors*errors{iferrors==nullptr{throwstd::invalid_argument""Unexpected null errors""}if!errors->empty{throwstd::invalid_argument""Unexpected non-empty errors""}if!value.isObject{constautoexpected_but_got""Expected an object, but got: ""errors->addrefmessageexpected_but_gotstrlenexpected_but_gotvalue_type_to_stringvalue.typereturn}if!value.isMember""some_property""{errors->addref""Property is missing: some_property""}else{constJson::Value&value_0value[""some_property""]with_optional_fromvalue_0std::stringref.append""/some_property""&target->some_propertyerrors}iferrors->full{return}}");
   (s_ "voidwith_optional_fromconstJson::Value&valuestd::stringrefWithOptional*targetparse::Errors*errors{if!value.isObject{constautoexpected_but_got""Expected an object, but got: ""errors->addrefmessageexpected_but_gotstrlenexpected_but_gotvalue_type_to_stringvalue.typereturn}ifvalue.isMember""some_text""{constJson::Value&value_0value[""some_text""]if!value_0.isString{constautoexpected_but_got""Expected a string, but got: ""errors->addstd::stringref.append""/some_text""messageexpected_but_gotstrlenexpected_but_gotvalue_type_to_stringvalue_0.type}else{target->some_textvalue_0.asString}}iferrors->full{return}}");
   (s_ "Json::Valueserialize_with_optionalconstWithOptional&with_optional{Json::Valuewith_optional_as_valueifwith_optional.some_text{with_optional_as_value[""some_text""]*with_optional.some_text}returnwith_optional_as_value}");
   (s_ "Json::Valueserialize_some_graphconstSomeGraph&some_graph{Json::Valuesome_graph_as_valuesome_graph_as_value[""some_property""]serialize_with_optionalsome_graph.some_propertyreturnsome_graph_as_value}")]
  [([(s_ "value");
   (s_ "ref");
   (s_ "target");
   (s_ "errors")], [(s_ "errors");
   (s_ "expected_but_got");
   (s_ "message");
   (s_ "ref");
   (s_ "strlen");
   (s_ "target");
   (s_ "value");
   (s_ "value_0");
   (s_ "value_type_to_string");
   (s_ "with_optional_from")]);
   ([(s_ "value");
   (s_ "ref");
   (s_ "target");
   (s_ "errors")], [(s_ "errors");
   (s_ "expected_but_got");
   (s_ "message");
   (s_ "ref");
   (s_ "strlen");
   (s_ "target");
   (s_ "value");
   (s_ "value_0");
   (s_ "value_type_to_string")]);
   ([(s_ "with_optional")], [(s_ "with_optional");
   (s_ "with_optional_as_value")]);
   ([(s_ "some_graph")], [(s_ "serialize_with_optional");
   (s_ "some_graph");
   (s_ "some_graph_as_value")])]
  [(s_ "voidsome_graph_fromconstJson::Value&std::stringSomeGraph*parse::Errors*");
   (s_ "voidwith_optional_fromconstJson::Value&std::stringWithOptional*parse::Errors*");
   (s_ "Json::Valueserialize_some_graphconstSomeGraph&");
   (s_ "Json::Valueserialize_with_optionalconstWithOptional&")]
  [(s_ "WithOptional{std::experimental::optional<std::string>some_text}");
   (s_ "SomeGraph{WithOptionalsome_property}")]
  [(s_ "optional.hpp");
   (s_ "string")] [(s_ "json/json.h");
   (s_ "optional.hpp");
   (s_ "string")] [(s_ "cstring");
   (s_ "memory");
   (s_ "sstream");
   (s_ "stdexcept");
   (s_ "string");
   (s_ "utility")] [(s_ "string");
   (s_ "vector")].

(** test_cases/general/optional_in_graph/cpp/test_generate *)
Definition cpp_general_optional_in_graph : cpp_recorded_source :=
  CppSource
  [(s_ "voidsome_graph_fromconstJson::Value&valuestd::stringrefSomeGraph*targetparse::Errors*errors{iferrors==nullptr{throwstd::invalid_argument""Unexpected null errors""}if!errors->empty{throwstd::invalid_argument""Unexpected non-empty errors""}if!value.isObject{constautoexpected_but_got""Expected an object, but got: ""errors->addrefmessageexpected_but_gotstrlenexpected_but_gotvalue_type_to_stringvalue.typereturn}std::stringempties_refempties_ref.reserveref.size+8empties_ref+=refempties_ref+=""/empties""ifvalue.isMember""empties""{constJson::Value&objvalue[""empties""]if!obj.isObject{constautoexpected_but_got""Expected an object, but got: ""errors->addempties_refmessageexpected_but_gotstrlenexpected_but_gotvalue_type_to_stringobj.type}else{forJson::ValueConstIteratoritobj.beginit!=obj.end++it{autoinstancestd::make_unique<Empty>instance->idit.nametarget->empties[it.name]std::moveinstance}}}if!errors->empty{return}std::stringinstance_refinstance_ref.clearinstance_ref+=empties_refinstance_ref+='/'ifvalue.isMember""empties""{constJson::Value&objvalue[""empties""]forJson::ValueConstIteratoritobj.beginit!=obj.end++it{instance_ref.reserveempties_ref.size+1+it.name.sizeinstance_ref.resizeempties_ref.size+1instance_ref.appendit.nameEmpty*instancetarget->empties.atit.name.getempty_from*itinstance_refinstanceerrorsiferrors->full{break}}}iferrors->full{return}ifvalue.isMember""optional_array""{target->optional_array.emplaceconstJson::Value&value_0value[""optional_array""]if!value_0.isArray{constautoexpected_but_got""Expected an array, but got: ""errors->addstd::stringref.append""/optional_array""messageexpected_but_gotstrlenexpected_but_gotvalue_type_to_stringvalue_0.type}else{std::vector<int64_t>&target_0*target->optional_arraytarget_0.resizevalue_0.sizesize_ti_00forconstJson::Value&item_0:value_0{if!item_0.isInt64{constautoexpected_but_got""Expected an int64, but got: ""errors->addstd::stringref.append""/optional_array"".append""/"".appendstd::to_stringi_0messageexpected_but_gotstrlenexpected_but_gotvalue_type_to_stringitem_0.type}else{target_0.ati_0item_0.asInt64}++i_0iferrors->full{break}}}}iferrors->full{return}ifvalue.isMember""optional_boolean""{constJson::Value&value_2value[""optional_boolean""]if!value_2.isBool{constautoexpected_but_got""Expected a bool, but got: ""errors->addstd::stringref.append""/optional_boolean""messageexpected_but_gotstrlenexpected_but_gotvalue_type_to_stringvalue_2.type}else{target->optional_booleanvalue_2.asBool}}iferrors->full{return}ifvalue.isMember""optional_date""{constJson::Value&value_3value[""optional_date""]if!value_3.isString{constautoexpected_but_got""Expected a string, but got: ""errors->addstd::stringref.append""/optional_date""messageexpected_but_gotstrlenexpected_but_gotvalue_type_to_stringvalue_3.type}else{conststd::stringcast_3value_3.asStringstructtmtm_3tm{0}char*ret_3strptimecast_3.c_str""%Y-%m-%d""&tm_3ifret_3==nullptr||*ret_3!='\0'{constautoexpected_but_got""Expected to strptime %Y-%m-%d, but got: ""errors->addstd::stringref.append""/optional_date""messageexpected_but_gotstrlenexpected_but_gotcast_3}else{target->optional_datetm_3}}}iferrors->full{return}ifvalue.isMember""optional_datetime""{constJson::Value&value_4value[""optional_datetime""]if!value_4.isString{constautoexpected_but_got""Expected a string, but got: ""errors->addstd::stringref.append""/optional_datetime""messageexpected_but_gotstrlenexpected_but_gotvalue_type_to_stringvalue_4.type}else{conststd::stringcast_4value_4.asStringstructtmtm_4tm{0}char*ret_4strptimecast_4.c_str""%Y-%m-%dT%H:%M:%SZ""&tm_4ifret_4==nullptr||*ret_4!='\0'{constautoexpected_but_got""Expected to strptime %Y-%m-%dT%H:%M:%SZ, but got: ""errors->addstd::stringref.append""/optional_datetime""messageexpected_but_gotstrlenexpected_but_gotcast_4}else{target->optional_datetimetm_4}}}iferrors->full{return}ifvalue.isMember""optional_duration""{constJson::Value&value_5value[""optional_duration""]if!value_5.isString{constautoexpected_but_got""Expected a string, but got: ""errors->addstd::stringref.append""/optional_duration""messageexpected_but_gotstrlenexpected_but_gotvalue_type_to_stringvalue_5.type}else{conststd::stringcast_5_strvalue_5.asStringstd::stringerror_5std::chrono::nanosecondscast_5duration_from_stringcast_5_str&error_5if!error_5.empty{constautoinvalid_duration""Invalid duration: ""errors->addstd::stringref.append""/optional_duration""messageinvalid_durationstrleninvalid_durationerror_5}else{target->optional_durationcast_5}}}iferrors->full{return}ifvalue.isMember""optional_float""{constJson::Value&value_6value[""optional_float""]if!value_6.isDouble{constautoexpected_but_got""Expected a double, but got: ""errors->addstd::stringref.append""/optional_float""messageexpected_but_gotstrlenexpected_but_gotvalue_type_to_stringvalue_6.type}else{target->optional_floatvalue_6.asDouble}}iferrors->full{return}ifvalue.isMember""optional_integer""{constJson::Value&value_7value[""optional_integer""]if!value_7.isInt64{constautoexpected_but_got""Expected an int64, but got: ""errors->addstd::stringref.append""/optional_integer""messageexpected_but_gotstrlenexpected_but_gotvalue_type_to_stringvalue_7.type}else{target->optional_integervalue_7.asInt64}}iferrors->full{return}ifvalue.isMember""optional_map""{target->optional_map.emplaceconstJson::Value&value_8value[""optional_map""]if!value_8.isObject{constautoexpected_but_got""Expected an object, but got: ""errors->addstd::stringref.append""/optional_map""messageexpected_but_gotstrlenexpected_but_gotvalue_type_to_stringvalue_8.type}else{std::map<std::stringint64_t>&target_8*target->optional_mapforJson::ValueConstIteratorit_8value_8.beginit_8!=value_8.end++it_8{constJson::Value&value_9*it_8if!value_9.isInt64{constautoexpected_but_got""Expected an int64, but got: ""errors->addstd::stringref.append""/optional_map"".append""/"".appendit_8.namemessageexpected_but_gotstrlenexpected_but_gotvalue_type_to_stringvalue_9.type}else{target_8[it_8.name]value_9.asInt64}iferrors->full{break}}}}iferrors->full{return}ifvalue.isMember""optional_path""{constJson::Value&value_10value[""optional_path""]if!value_10.isString{constautoexpected_but_got""Expected a string, but got: ""errors->addstd::stringref.append""/optional_path""messageexpected_but_gotstrlenexpected_but_gotvalue_type_to_stringvalue_10.type}else{target->optional_pathboost::filesystem::pathvalue_10.asString}}iferrors->full{return}ifvalue.isMember""optional_string""{constJson::Value&value_11value[""optional_string""]if!value_11.isString{constautoexpected_but_got""Expected a string, but got: ""errors->addstd::stringref.append""/optional_string""messageexpected_but_gotstrlenexpected_but_gotvalue_type_to_stringvalue_11.type}else{target->optional_stringvalue_11.asString}}iferrors->full{return}ifvalue.isMember""optional_time""{constJson::Value&value_12value[""optional_time""]if!value_12.isString{constautoexpected_but_got""Expected a string, but got: ""errors->addstd::stringref.append""/optional_time""messageexpected_but_gotstrlenexpected_but_gotvalue_type_to_stringvalue_12.type}else{conststd::stringcast_12value_12.asStringstructtmtm_12tm{0}char*ret_12strptimecast_12.c_str""%H:%M:%S""&tm_12ifret_12==nullptr||*ret_12!='\0'{constautoexpected_but_got""Expected to strptime %H:%M:%S, but got: ""errors->addstd::stringref.append""/optional_time""messageexpected_but_gotstrlenexpected_but_gotcast_12}else{target->optional_timetm_12}}}iferrors->full{return}ifvalue.isMember""optional_time_zone""{constJson::Value&value_13value[""optional_time_zone""]if!value_13.isString{constautoexpected_but_got""Expected a string, but got: ""errors->addstd::stringref.append""/optional_time_zone""messageexpected_but_gotstrlenexpected_but_gotvalue_type_to_stringvalue_13.type}else{target->optional_time_zonevalue_13.asString}}iferrors->full{return}ifvalue.isMember""optional_reference""{constJson::Value&value_14value[""optional_reference""]if!value_14.isString{constautoexpected_but_got""Expected a string, but got: ""errors->addstd::stringref.append""/optional_reference""messageexpected_but_gotstrlenexpected_but_gotvalue_type_to_stringvalue_14.type}else{conststd::string&cast_14value_14.asStringiftarget->empties.countcast_14==0{constautoreference_not_found""Reference to an instance of class Empty not found: ""errors->addstd::stringref.append""/optional_reference""messagereference_not_foundstrlenreference_not_foundcast_14}else{target->optional_referencetarget->empties.atcast_14.get}}}iferrors->full{return}ifvalue.isMember""optional_embed""{target->optional_embed.emplaceconstJson::Value&value_15value[""optional_embed""]some_embed_fromvalue_15std::stringref.append""/optional_embed""&*target->optional_embederrors}iferrors->full{return}}");
   (s_ "voidempty_fromconstJson::Value&valuestd::stringrefEmpty*targetparse::Errors*errors{if!value.isObject{constautoexpected_but_got""Expected an object, but got: ""errors->addrefmessageexpected_but_gotstrlenexpected_but_gotvalue_type_to_stringvalue.typereturn}}");
   (s_ "voidsome_embed_fromconstJson::Value&valuestd::stringrefSomeEmbed*targetparse::Errors*errors{if!value.isObject{constautoexpected_but_got""Expected an object, but got: ""errors->addrefmessageexpected_but_gotstrlenexpected_but_gotvalue_type_to_stringvalue.typereturn}}");
   (s_ "Json::Valueserialize_emptyconstEmpty&empty{returnJson::objectValue}");
   (s_ "Json::Valueserialize_some_embedconstSomeEmbed&some_embed{returnJson::objectValue}");
   (s_ "Json::Valueserialize_some_graphconstSomeGraph&some_graph{Json::Valuesome_graph_as_valueifsome_graph.optional_array{Json::Valuetarget_0Json::arrayValueconstauto&vector_0*some_graph.optional_arrayforinti_00i_0<vector_0.size++i_0{target_0[i_0]vector_0[i_0]}some_graph_as_value[""optional_array""]std::movetarget_0}ifsome_graph.optional_boolean{some_graph_as_value[""optional_boolean""]*some_graph.optional_boolean}ifsome_graph.optional_date{some_graph_as_value[""optional_date""]tm_to_string*some_graph.optional_date""%Y-%m-%d""}ifsome_graph.optional_datetime{some_graph_as_value[""optional_datetime""]tm_to_string*some_graph.optional_datetime""%Y-%m-%dT%H:%M:%SZ""}ifsome_graph.optional_duration{some_graph_as_value[""optional_duration""]duration_to_string*some_graph.optional_duration}ifsome_graph.optional_float{some_graph_as_value[""optional_float""]*some_graph.optional_float}ifsome_graph.optional_integer{some_graph_as_value[""optional_integer""]*some_graph.optional_integer}ifsome_graph.optional_map{Json::Valuetarget_1Json::objectValueconstauto&map_1*some_graph.optional_mapforconstauto&kv_1:map_1{target_1[kv_1.first]kv_1.second}some_graph_as_value[""optional_map""]std::movetarget_1}ifsome_graph.optional_path{some_graph_as_value[""optional_path""]some_graph.optional_path->string}ifsome_graph.optional_string{some_graph_as_value[""optional_string""]*some_graph.optional_string}ifsome_graph.optional_time{some_graph_as_value[""optional_time""]tm_to_string*some_graph.optional_time""%H:%M:%S""}ifsome_graph.optional_time_zone{some_graph_as_value[""optional_time_zone""]*some_graph.optional_time_zone}ifsome_graph.optional_reference{some_graph_as_value[""optional_reference""]*some_graph.optional_reference->id}ifsome_graph.optional_embed{some_graph_as_value[""optional_embed""]serialize_some_embed*some_graph.optional_embed}if!some_graph.empties.empty{Json::Valueempties_as_valueforconstauto&kv:some_graph.empties{conststd::string&idkv.firstconstEmpty*instancekv.second.getifid!=instance->id{constautoexpected""Expected the class instance of Emptyto have the ID ""constautobut_got"", but got: ""std::stringmsgmsg.reservestrlenexpected+id.size+strlenbut_got+instance->id.sizemsg+=expectedmsg+=idmsg+=but_gotmsg+=instance->idthrowstd::invalid_argumentmsg}empties_as_value[instance->id]serialize_empty*instance}some_graph_as_value[""empties""]empties_as_value}returnsome_graph_as_value}")]
  [([(s_ "value");
   (s_ "ref");
   (s_ "target");
   (s_ "errors")], [(s_ "Empty");
   (s_ "cast_12");
   (s_ "cast_14");
   (s_ "cast_3");
   (s_ "cast_4");
   (s_ "cast_5");
   (s_ "cast_5_str");
   (s_ "duration_from_string");
   (s_ "empties_ref");
   (s_ "empty_from");
   (s_ "error_5");
   (s_ "errors");
   (s_ "expected_but_got");
   (s_ "i_0");
   (s_ "instance");
   (s_ "instance_ref");
   (s_ "int64_t");
   (s_ "invalid_duration");
   (s_ "it");
   (s_ "it_8");
   (s_ "item_0");
   (s_ "message");
   (s_ "obj");
   (s_ "ref");
   (s_ "reference_not_found");
   (s_ "ret_12");
   (s_ "ret_3");
   (s_ "ret_4");
   (s_ "size_t");
   (s_ "some_embed_from");
   (s_ "strlen");
   (s_ "strptime");
   (s_ "target");
   (s_ "target_0");
   (s_ "target_8");
   (s_ "tm");
   (s_ "tm_12");
   (s_ "tm_3");
   (s_ "tm_4");
   (s_ "value");
   (s_ "value_0");
   (s_ "value_10");
   (s_ "value_11");
   (s_ "value_12");
   (s_ "value_13");
   (s_ "value_14");
   (s_ "value_15");
   (s_ "value_2");
   (s_ "value_3");
   (s_ "value_4");
   (s_ "value_5");
   (s_ "value_6");
   (s_ "value_7");
   (s_ "value_8");
   (s_ "value_9");
   (s_ "value_type_to_string")]);
   ([(s_ "value");
   (s_ "ref");
   (s_ "target");
   (s_ "errors")], [(s_ "errors");
   (s_ "expected_but_got");
   (s_ "message");
   (s_ "ref");
   (s_ "strlen");
   (s_ "value");
   (s_ "value_type_to_string")]);
   ([(s_ "value");
   (s_ "ref");
   (s_ "target");
   (s_ "errors")], [(s_ "errors");
   (s_ "expected_but_got");
   (s_ "message");
   (s_ "ref");
   (s_ "strlen");
   (s_ "value");
   (s_ "value_type_to_string")]);
   ([(s_ "empty")], []);
   ([(s_ "some_embed")], []);
   ([(s_ "some_graph")], [(s_ "Empty");
   (s_ "but_got");
   (s_ "duration_to_string");
   (s_ "empties_as_value");
   (s_ "expected");
   (s_ "i_0");
   (s_ "id");
   (s_ "instance");
   (s_ "kv");
   (s_ "kv_1");
   (s_ "map_1");
   (s_ "msg");
   (s_ "serialize_empty");
   (s_ "serialize_some_embed");
   (s_ "some_graph");
   (s_ "some_graph_as_value");
   (s_ "strlen");
   (s_ "target_0");
   (s_ "target_1");
   (s_ "tm_to_string");
   (s_ "vector_0")])]
  [(s_ "voidsome_graph_fromconstJson::Value&std::stringSomeGraph*parse::Errors*");
   (s_ "voidsome_embed_fromconstJson::Value&std::stringSomeEmbed*parse::Errors*");
   (s_ "voidempty_fromconstJson::Value&std::stringEmpty*parse::Errors*");
   (s_ "Json::Valueserialize_some_graphconstSomeGraph&");
   (s_ "Json::Valueserialize_emptyconstEmpty&");
   (s_ "Json::Valueserialize_some_embedconstSomeEmbed&")]
  [(s_ "SomeEmbed{}");
   (s_ "Empty{std::stringid}");
   (s_ "SomeGraph{std::experimental::optional<std::vector<int64_t>>optional_arraystd::experimental::optional<bool>optional_booleanstd::experimental::optional<structtm>optional_datestd::experimental::optional<structtm>optional_datetimestd::experimental::optional<std::chrono::nanoseconds>optional_durationstd::experimental::optional<double>optional_floatstd::experimental::optional<int64_t>optional_integerstd::experimental::optional<std::map<std::stringint64_t>>optional_mapstd::experimental::optional<boost::filesystem::path>optional_pathstd::experimental::optional<std::string>optional_stringstd::experimental::optional<structtm>optional_timestd::experimental::optional<std::string>optional_time_zonestd::experimental::optional<Empty*>optional_referencestd::experimental::optional<SomeEmbed>optional_embedstd::map<std::stringstd::unique_ptr<Empty>>empties}")]
  [(s_ "boost/filesystem/path.hpp");
   (s_ "optional.hpp");
   (s_ "chrono");
   (s_ "cstdint");
   (s_ "ctime");
   (s_ "map");
   (s_ "memory");
   (s_ "string");
   (s_ "vector")] [(s_ "boost/filesystem/path.hpp");
   (s_ "json/json.h");
   (s_ "optional.hpp");
   (s_ "map");
   (s_ "string")] [(s_ "cmath");
   (s_ "cstring");
   (s_ "iomanip");
   (s_ "limits");
   (s_ "memory");
   (s_ "regex");
   (s_ "sstream");
   (s_ "stdexcept");
   (s_ "string");
   (s_ "utility")] [(s_ "string");
   (s_ "vector")].

(** test_cases/general/primitive_type/boolean/cpp/test_generate *)
Definition cpp_general_primitive_type_boolean : cpp_recorded_source :=
  CppSource
  [(s_ "voidsome_graph_fromconstJson::Value&valuestd::stringrefSomeGraph*targetparse::Errors*errors{iferrors==nullptr{throwstd::invalid_argument""Unexpected null errors""}if!errors->empty{throwstd::invalid_argument""Unexpected non-empty errors""}if!value.isObject{constautoexpected_but_got""Expected an object, but got: ""errors->addrefmessageexpected_but_gotstrlenexpected_but_gotvalue_type_to_stringvalue.typereturn}if!value.isMember""some_bool""{errors->addref""Property is missing: some_bool""}else{constJson::Value&value_0value[""some_bool""]if!value_0.isBool{constautoexpected_but_got""Expected a bool, but got: ""errors->addstd::stringref.append""/some_bool""messageexpected_but_gotstrlenexpected_but_gotvalue_type_to_stringvalue_0.type}else{target->some_boolvalue_0.asBool}}iferrors->full{return}}");
   (s_ "Json::Valueserialize_some_graphconstSomeGraph&some_graph{Json::Valuesome_graph_as_valuesome_graph_as_value[""some_bool""]some_graph.some_boolreturnsome_graph_as_value}")]
  [([(s_ "value");
   (s_ "ref");
   (s_ "target");
   (s_ "errors")], [(s_ "errors");
   (s_ "expected_but_got");
   (s_ "message");
   (s_ "ref");
   (s_ "strlen");
   (s_ "target");
   (s_ "value");
   (s_ "value_0");
   (s_ "value_type_to_string")]);
   ([(s_ "some_graph")], [(s_ "some_graph");
   (s_ "some_graph_as_value")])]
  [(s_ "voidsome_graph_fromconstJson::Value&std::stringSomeGraph*parse::Errors*");
   (s_ "Json::Valueserialize_some_graphconstSomeGraph&")]
  [(s_ "SomeGraph{boolsome_boolfalse}")]
  [] [(s_ "json/json.h")] [(s_ "cstring");
   (s_ "memory");
   (s_ "sstream");
   (s_ "stdexcept");
   (s_ "string");
   (s_ "utility")] [(s_ "string");
   (s_ "vector")].

(** test_cases/general/primitive_type/date/cpp/test_generate *)
Definition cpp_general_primitive_type_date : cpp_recorded_source :=
  CppSource
  [(s_ "voidsome_graph_fromconstJson::Value&valuestd::stringrefSomeGraph*targetparse::Errors*errors{iferrors==nullptr{throwstd::invalid_argument""Unexpected null errors""}if!errors->empty{throwstd::invalid_argument""Unexpected non-empty errors""}if!value.isObject{constautoexpected_but_got""Expected an object, but got: ""errors->addrefmessageexpected_but_gotstrlenexpected_but_gotvalue_type_to_stringvalue.typereturn}if!value.isMember""some_date""{errors->addref""Property is missing: some_date""}else{constJson::Value&value_0value[""some_date""]if!value_0.isString{constautoexpected_but_got""Expected a string, but got: ""errors->addstd::stringref.append""/some_date""messageexpected_but_gotstrlenexpected_but_gotvalue_type_to_stringvalue_0.type}else{conststd::stringcast_0value_0.asStringstructtmtm_0tm{0}char*ret_0strptimecast_0.c_str""%Y/%m/%d""&tm_0ifret_0==nullptr||*ret_0!='\0'{constautoexpected_but_got""Expected to strptime %Y/%m/%d, but got: ""errors->addstd::stringref.append""/some_date""messageexpected_but_gotstrlenexpected_but_gotcast_0}else{target->some_datetm_0}}}iferrors->full{return}if!value.isMember""formatless_date""{errors->addref""Property is missing: formatless_date""}else{constJson::Value&value_1value[""formatless_date""]if!value_1.isString{constautoexpected_but_got""Expected a string, but got: ""errors->addstd::stringref.append""/formatless_date""messageexpected_but_gotstrlenexpected_but_gotvalue_type_to_stringvalue_1.type}else{conststd::stringcast_1value_1.asStringstructtmtm_1tm{0}char*ret_1strptimecast_1.c_str""%Y-%m-%d""&tm_1ifret_1==nullptr||*ret_1!='\0'{constautoexpected_but_got""Expected to strptime %Y-%m-%d, but got: ""errors->addstd::stringref.append""/formatless_date""messageexpected_but_gotstrlenexpected_but_gotcast_1}else{target->formatless_datetm_1}}}iferrors->full{return}}");
   (s_ "Json::Valueserialize_some_graphconstSomeGraph&some_graph{Json::Valuesome_graph_as_valuesome_graph_as_value[""some_date""]tm_to_stringsome_graph.some_date""%Y/%m/%d""some_graph_as_value[""formatless_date""]tm_to_stringsome_graph.formatless_date""%Y-%m-%d""returnsome_graph_as_value}")]
  [([(s_ "value");
   (s_ "ref");
   (s_ "target");
   (s_ "errors")], [(s_ "cast_0");
   (s_ "cast_1");
   (s_ "errors");
   (s_ "expected_but_got");
   (s_ "message");
   (s_ "ref");
   (s_ "ret_0");
   (s_ "ret_1");
   (s_ "strlen");
   (s_ "strptime");
   (s_ "target");
   (s_ "tm");
   (s_ "tm_0");
   (s_ "tm_1");
   (s_ "value");
   (s_ "value_0");
   (s_ "value_1");
   (s_ "value_type_to_string")]);
   ([(s_ "some_graph")], [(s_ "some_graph");
   (s_ "some_graph_as_value");
   (s_ "tm_to_string")])]
  [(s_ "voidsome_graph_fromconstJson::Value&std::stringSomeGraph*parse::Errors*");
   (s_ "Json::Valueserialize_some_graphconstSomeGraph&")]
  [(s_ "SomeGraph{structtmsome_datetm{0}structtmformatless_datetm{0}}")]
  [(s_ "ctime")] [(s_ "json/json.h")] [(s_ "cstring");
   (s_ "memory");
   (s_ "sstream");
   (s_ "stdexcept");
   (s_ "string");
   (s_ "utility")] [(s_ "string");
   (s_ "vector")].

(** test_cases/general/primitive_type/datetime/cpp/test_generate *)
Definition cpp_general_primitive_type_datetime : cpp_recorded_source :=
  CppSource
  [(s_ "voidsome_graph_fromconstJson::Value&valuestd::stringrefSomeGraph*targetparse::Errors*errors{iferrors==nullptr{throwstd::invalid_argument""Unexpected null errors""}if!errors->empty{throwstd::invalid_argument""Unexpected non-empty errors""}if!value.isObject{constautoexpected_but_got""Expected an object, but got: ""errors->addrefmessageexpected_but_gotstrlenexpected_but_gotvalue_type_to_stringvalue.typereturn}if!value.isMember""some_datetime""{errors->addref""Property is missing: some_datetime""}else{constJson::Value&value_0value[""some_datetime""]if!value_0.isString{constautoexpected_but_got""Expected a string, but got: ""errors->addstd::stringref.append""/some_datetime""messageexpected_but_gotstrlenexpected_but_gotvalue_type_to_stringvalue_0.type}else{conststd::stringcast_0value_0.asStringstructtmtm_0tm{0}char*ret_0strptimecast_0.c_str""%Y/%m/%d %H-%M-%SZ""&tm_0ifret_0==nullptr||*ret_0!='\0'{constautoexpected_but_got""Expected to strptime %Y/%m/%d %H-%M-%SZ, but got: ""errors->addstd::stringref.append""/some_datetime""messageexpected_but_gotstrlenexpected_but_gotcast_0}else{target->some_datetimetm_0}}}iferrors->full{return}if!value.isMember""formatless_datetime""{errors->addref""Property is missing: formatless_datetime""}else{constJson::Value&value_1value[""formatless_datetime""]if!value_1.isString{constautoexpected_but_got""Expected a string, but got: ""errors->addstd::stringref.append""/formatless_datetime""messageexpected_but_gotstrlenexpected_but_gotvalue_type_to_stringvalue_1.type}else{conststd::stringcast_1value_1.asStringstructtmtm_1tm{0}char*ret_1strptimecast_1.c_str""%Y-%m-%dT%H:%M:%SZ""&tm_1ifret_1==nullptr||*ret_1!='\0'{constautoexpected_but_got""Expected to strptime %Y-%m-%dT%H:%M:%SZ, but got: ""errors->addstd::stringref.append""/formatless_datetime""messageexpected_but_gotstrlenexpected_but_gotcast_1}else{target->formatless_datetimetm_1}}}iferrors->full{return}}");
   (s_ "Json::Valueserialize_some_graphconstSomeGraph&some_graph{Json::Valuesome_graph_as_valuesome_graph_as_value[""some_datetime""]tm_to_stringsome_graph.some_datetime""%Y/%m/%d %H-%M-%SZ""some_graph_as_value[""formatless_datetime""]tm_to_stringsome_graph.formatless_datetime""%Y-%m-%dT%H:%M:%SZ""returnsome_graph_as_value}")]
  [([(s_ "value");
   (s_ "ref");
   (s_ "target");
   (s_ "errors")], [(s_ "cast_0");
   (s_ "cast_1");
   (s_ "errors");
   (s_ "expected_but_got");
   (s_ "message");
   (s_ "ref");
   (s_ "ret_0");
   (s_ "ret_1");
   (s_ "strlen");
   (s_ "strptime");
   (s_ "target");
   (s_ "tm");
   (s_ "tm_0");
   (s_ "tm_1");
   (s_ "value");
   (s_ "value_0");
   (s_ "value_1");
   (s_ "value_type_to_string")]);
   ([(s_ "some_graph")], [(s_ "some_graph");
   (s_ "some_graph_as_value");
   (s_ "tm_to_string")])]
  [(s_ "voidsome_graph_fromconstJson::Value&std::stringSomeGraph*parse::Errors*");
   (s_ "Json::Valueserialize_some_graphconstSomeGraph&")]
  [(s_ "SomeGraph{structtmsome_datetimetm{0}structtmformatless_datetimetm{0}}")]
  [(s_ "ctime")] [(s_ "json/json.h")] [(s_ "cstring");
   (s_ "memory");
   (s_ "sstream");
   (s_ "stdexcept");
   (s_ "string");
   (s_ "utility")] [(s_ "string");
   (s_ "vector")].

(** test_cases/general/primitive_type/duration/cpp/test_generate *)
Definition cpp_general_primitive_type_duration : cpp_recorded_source :=
  CppSource
  [(s_ "voidsome_graph_fromconstJson::Value&valuestd::stringrefSomeGraph*targetparse::Errors*errors{iferrors==nullptr{throwstd::invalid_argument""Unexpected null errors""}if!errors->empty{throwstd::invalid_argument""Unexpected non-empty errors""}if!value.isObject{constautoexpected_but_got""Expected an object, but got: ""errors->addrefmessageexpected_but_gotstrlenexpected_but_gotvalue_type_to_stringvalue.typereturn}if!value.isMember""some_duration""{errors->addref""Property is missing: some_duration""}else{constJson::Value&value_0value[""some_duration""]if!value_0.isString{constautoexpected_but_got""Expected a string, but got: ""errors->addstd::stringref.append""/some_duration""messageexpected_but_gotstrlenexpected_but_gotvalue_type_to_stringvalue_0.type}else{conststd::stringcast_0_strvalue_0.asStringstd::stringerror_0std::chrono::nanosecondscast_0duration_from_stringcast_0_str&error_0if!error_0.empty{constautoinvalid_duration""Invalid duration: ""errors->addstd::stringref.append""/some_duration""messageinvalid_durationstrleninvalid_durationerror_0}else{target->some_durationcast_0}}}iferrors->full{return}}");
   (s_ "Json::Valueserialize_some_graphconstSomeGraph&some_graph{Json::Valuesome_graph_as_valuesome_graph_as_value[""some_duration""]duration_to_stringsome_graph.some_durationreturnsome_graph_as_value}")]
  [([(s_ "value");
   (s_ "ref");
   (s_ "target");
   (s_ "errors")], [(s_ "cast_0");
   (s_ "cast_0_str");
   (s_ "duration_from_string");
   (s_ "error_0");
   (s_ "errors");
   (s_ "expected_but_got");
   (s_ "invalid_duration");
   (s_ "message");
   (s_ "ref");
   (s_ "strlen");
   (s_ "target");
   (s_ "value");
   (s_ "value_0");
   (s_ "value_type_to_string")]);
   ([(s_ "some_graph")], [(s_ "duration_to_string");
   (s_ "some_graph");
   (s_ "some_graph_as_value")])]
  [(s_ "voidsome_graph_fromconstJson::Value&std::stringSomeGraph*parse::Errors*");
   (s_ "Json::Valueserialize_some_graphconstSomeGraph&")]
  [(s_ "SomeGraph{std::chrono::nanosecondssome_duration}")]
  [(s_ "chrono")] [(s_ "json/json.h")] [(s_ "cmath");
   (s_ "cstring");
   (s_ "iomanip");
   (s_ "limits");
   (s_ "memory");
   (s_ "regex");
   (s_ "sstream");
   (s_ "stdexcept");
   (s_ "string");
   (s_ "utility")] [(s_ "string");
   (s_ "vector")].

(** test_cases/general/primitive_type/float/cpp/test_generate *)
Definition cpp_general_primitive_type_float : cpp_recorded_source :=
  CppSource
  [(s_ "voidsome_graph_fromconstJson::Value&valuestd::stringrefSomeGraph*targetparse::Errors*errors{iferrors==nullptr{throwstd::invalid_argument""Unexpected null errors""}if!errors->empty{throwstd::invalid_argument""Unexpected non-empty errors""}if!value.isObject{constautoexpected_but_got""Expected an object, but got: ""errors->addrefmessageexpected_but_gotstrlenexpected_but_gotvalue_type_to_stringvalue.typereturn}if!value.isMember""some_float_gt_0_lt_100""{errors->addref""Property is missing: some_float_gt_0_lt_100""}else{constJson::Value&value_0value[""some_float_gt_0_lt_100""]if!value_0.isDouble{constautoexpected_but_got""Expected a double, but got: ""errors->addstd::stringref.append""/some_float_gt_0_lt_100""messageexpected_but_gotstrlenexpected_but_gotvalue_type_to_stringvalue_0.type}else{constautocast_0value_0.asDoubleboolok_0trueif!cast_0>0{constautoexpected_but_got""Expected > 0, but got: ""errors->addstd::stringref.append""/some_float_gt_0_lt_100""messageexpected_but_gotstrlenexpected_but_gotstd::to_stringcast_0ok_0false}if!cast_0<100{constautoexpected_but_got""Expected < 100, but got: ""errors->addstd::stringref.append""/some_float_gt_0_lt_100""messageexpected_but_gotstrlenexpected_but_gotstd::to_stringcast_0ok_0false}ifok_0{target->some_float_gt_0_lt_100cast_0}}}iferrors->full{return}if!value.isMember""some_float_ge_0_le_100""{errors->addref""Property is missing: some_float_ge_0_le_100""}else{constJson::Value&value_1value[""some_float_ge_0_le_100""]if!value_1.isDouble{constautoexpected_but_got""Expected a double, but got: ""errors->addstd::stringref.append""/some_float_ge_0_le_100""messageexpected_but_gotstrlenexpected_but_gotvalue_type_to_stringvalue_1.type}else{constautocast_1value_1.asDoubleboolok_1trueif!cast_1>=0{constautoexpected_but_got""Expected >= 0, but got: ""errors->addstd::stringref.append""/some_float_ge_0_le_100""messageexpected_but_gotstrlenexpected_but_gotstd::to_stringcast_1ok_1false}if!cast_1<=100{constautoexpected_but_got""Expected <= 100, but got: ""errors->addstd::stringref.append""/some_float_ge_0_le_100""messageexpected_but_gotstrlenexpected_but_gotstd::to_stringcast_1ok_1false}ifok_1{target->some_float_ge_0_le_100cast_1}}}iferrors->full{return}if!value.isMember""unconstrained_float""{errors->addref""Property is missing: unconstrained_float""}else{constJson::Value&value_2value[""unconstrained_float""]if!value_2.isDouble{constautoexpected_but_got""Expected a double, but got: ""errors->addstd::stringref.append""/unconstrained_float""messageexpected_but_gotstrlenexpected_but_gotvalue_type_to_stringvalue_2.type}else{target->unconstrained_floatvalue_2.asDouble}}iferrors->full{return}}");
   (s_ "Json::Valueserialize_some_graphconstSomeGraph&some_graph{Json::Valuesome_graph_as_valuesome_graph_as_value[""some_float_gt_0_lt_100""]some_graph.some_float_gt_0_lt_100some_graph_as_value[""some_float_ge_0_le_100""]some_graph.some_float_ge_0_le_100some_graph_as_value[""unconstrained_float""]some_graph.unconstrained_floatreturnsome_graph_as_value}")]
  [([(s_ "value");
   (s_ "ref");
   (s_ "target");
   (s_ "errors")], [(s_ "cast_0");
   (s_ "cast_1");
   (s_ "errors");
   (s_ "expected_but_got");
   (s_ "message");
   (s_ "ok_0");
   (s_ "ok_1");
   (s_ "ref");
   (s_ "strlen");
   (s_ "target");
   (s_ "value");
   (s_ "value_0");
   (s_ "value_1");
   (s_ "value_2");
   (s_ "value_type_to_string")]);
   ([(s_ "some_graph")], [(s_ "some_graph");
   (s_ "some_graph_as_value")])]
  [(s_ "voidsome_graph_fromconstJson::Value&std::stringSomeGraph*parse::Errors*");
   (s_ "Json::Valueserialize_some_graphconstSomeGraph&")]
  [(s_ "SomeGraph{doublesome_float_gt_0_lt_1000doublesome_float_ge_0_le_1000doubleunconstrained_float0}")]
  [] [(s_ "json/json.h")] [(s_ "cstring");
   (s_ "memory");
   (s_ "sstream");
   (s_ "stdexcept");
   (s_ "string");
   (s_ "utility")] [(s_ "string");
   (s_ "vector")].

(** test_cases/general/primitive_type/integer/cpp/test_generate *)
Definition cpp_general_primitive_type_integer : cpp_recorded_source :=
  CppSource
  [(s_ "voidsome_graph_fromconstJson::Value&valuestd::stringrefSomeGraph*targetparse::Errors*errors{iferrors==nullptr{throwstd::invalid_argument""Unexpected null errors""}if!errors->empty{throwstd::invalid_argument""Unexpected non-empty errors""}if!value.isObject{constautoexpected_but_got""Expected an object, but got: ""errors->addrefmessageexpected_but_gotstrlenexpected_but_gotvalue_type_to_stringvalue.typereturn}if!value.isMember""some_int_gt_0_lt_100""{errors->addref""Property is missing: some_int_gt_0_lt_100""}else{constJson::Value&value_0value[""some_int_gt_0_lt_100""]if!value_0.isInt64{constautoexpected_but_got""Expected an int64, but got: ""errors->addstd::stringref.append""/some_int_gt_0_lt_100""messageexpected_but_gotstrlenexpected_but_gotvalue_type_to_stringvalue_0.type}else{constautocast_0value_0.asInt64boolok_0trueif!cast_0>0{constautoexpected_but_got""Expected > 0, but got: ""errors->addstd::stringref.append""/some_int_gt_0_lt_100""messageexpected_but_gotstrlenexpected_but_gotstd::to_stringcast_0ok_0false}if!cast_0<100{constautoexpected_but_got""Expected < 100, but got: ""errors->addstd::stringref.append""/some_int_gt_0_lt_100""messageexpected_but_gotstrlenexpected_but_gotstd::to_stringcast_0ok_0false}ifok_0{target->some_int_gt_0_lt_100cast_0}}}iferrors->full{return}if!value.isMember""some_int_ge_0_le_100""{errors->addref""Property is missing: some_int_ge_0_le_100""}else{constJson::Value&value_1value[""some_int_ge_0_le_100""]if!value_1.isInt64{constautoexpected_but_got""Expected an int64, but got: ""errors->addstd::stringref.append""/some_int_ge_0_le_100""messageexpected_but_gotstrlenexpected_but_gotvalue_type_to_stringvalue_1.type}else{constautocast_1value_1.asInt64boolok_1trueif!cast_1>=0{constautoexpected_but_got""Expected >= 0, but got: ""errors->addstd::stringref.append""/some_int_ge_0_le_100""messageexpected_but_gotstrlenexpected_but_gotstd::to_stringcast_1ok_1false}if!cast_1<=100{constautoexpected_but_got""Expected <= 100, but got: ""errors->addstd::stringref.append""/some_int_ge_0_le_100""messageexpected_but_gotstrlenexpected_but_gotstd::to_stringcast_1ok_1false}ifok_1{target->some_int_ge_0_le_100cast_1}}}iferrors->full{return}if!value.isMember""unconstrained_int""{errors->addref""Property is missing: unconstrained_int""}else{constJson::Value&value_2value[""unconstrained_int""]if!value_2.isInt64{constautoexpected_but_got""Expected an int64, but got: ""errors->addstd::stringref.append""/unconstrained_int""messageexpected_but_gotstrlenexpected_but_gotvalue_type_to_stringvalue_2.type}else{target->unconstrained_intvalue_2.asInt64}}iferrors->full{return}}");
   (s_ "Json::Valueserialize_some_graphconstSomeGraph&some_graph{Json::Valuesome_graph_as_valuesome_graph_as_value[""some_int_gt_0_lt_100""]some_graph.some_int_gt_0_lt_100some_graph_as_value[""some_int_ge_0_le_100""]some_graph.some_int_ge_0_le_100some_graph_as_value[""unconstrained_int""]some_graph.unconstrained_intreturnsome_graph_as_value}")]
  [([(s_ "value");
   (s_ "ref");
   (s_ "target");
   (s_ "errors")], [(s_ "cast_0");
   (s_ "cast_1");
   (s_ "errors");
   (s_ "expected_but_got");
   (s_ "message");
   (s_ "ok_0");
   (s_ "ok_1");
   (s_ "ref");
   (s_ "strlen");
   (s_ "target");
   (s_ "value");
   (s_ "value_0");
   (s_ "value_1");
   (s_ "value_2");
   (s_ "value_type_to_string")]);
   ([(s_ "some_graph")], [(s_ "some_graph");
   (s_ "some_graph_as_value")])]
  [(s_ "voidsome_graph_fromconstJson::Value&std::stringSomeGraph*parse::Errors*");
   (s_ "Json::Valueserialize_some_graphconstSomeGraph&")]
  [(s_ "SomeGraph{int64_tsome_int_gt_0_lt_1000int64_tsome_int_ge_0_le_1000int64_tunconstrained_int0}")]
  [(s_ "cstdint")] [(s_ "json/json.h")] [(s_ "cstring");
   (s_ "memory");
   (s_ "sstream");
   (s_ "stdexcept");
   (s_ "string");
   (s_ "utility")] [(s_ "string");
   (s_ "vector")].

(** test_cases/general/primitive_type/path/cpp/test_generate *)
Definition cpp_general_primitive_type_path : cpp_recorded_source :=
  CppSource
  [(s_ "voidsome_graph_fromconstJson::Value&valuestd::stringrefSomeGraph*targetparse::Errors*errors{iferrors==nullptr{throwstd::invalid_argument""Unexpected null errors""}if!errors->empty{throwstd::invalid_argument""Unexpected non-empty errors""}if!value.isObject{constautoexpected_but_got""Expected an object, but got: ""errors->addrefmessageexpected_but_gotstrlenexpected_but_gotvalue_type_to_stringvalue.typereturn}if!value.isMember""some_path""{errors->addref""Property is missing: some_path""}else{constJson::Value&value_0value[""some_path""]if!value_0.isString{constautoexpected_but_got""Expected a string, but got: ""errors->addstd::stringref.append""/some_path""messageexpected_but_gotstrlenexpected_but_gotvalue_type_to_stringvalue_0.type}else{conststd::regexregex""^/[a-zA-Z]+-[0-9]+$""conststd::stringcast_0value_0.asStringboolok_0trueif!std::regex_matchcast_0regex{constautoexpected_but_got""Expected to match ^/[a-zA-Z]+-[0-9]+$, but got: ""errors->addstd::stringref.append""/some_path""messageexpected_but_gotstrlenexpected_but_gotcast_0ok_0false}ifok_0{target->some_pathboost::filesystem::pathvalue_0.asString}}}iferrors->full{return}if!value.isMember""unconstrained_path""{errors->addref""Property is missing: unconstrained_path""}else{constJson::Value&value_1value[""unconstrained_path""]if!value_1.isString{constautoexpected_but_got""Expected a string, but got: ""errors->addstd::stringref.append""/unconstrained_path""messageexpected_but_gotstrlenexpected_but_gotvalue_type_to_stringvalue_1.type}else{target->unconstrained_pathboost::filesystem::pathvalue_1.asString}}iferrors->full{return}}");
   (s_ "Json::Valueserialize_some_graphconstSomeGraph&some_graph{Json::Valuesome_graph_as_valuesome_graph_as_value[""some_path""]some_graph.some_path.stringsome_graph_as_value[""unconstrained_path""]some_graph.unconstrained_path.stringreturnsome_graph_as_value}")]
  [([(s_ "value");
   (s_ "ref");
   (s_ "target");
   (s_ "errors")], [(s_ "cast_0");
   (s_ "errors");
   (s_ "expected_but_got");
   (s_ "message");
   (s_ "ok_0");
   (s_ "ref");
   (s_ "regex");
   (s_ "strlen");
   (s_ "target");
   (s_ "value");
   (s_ "value_0");
   (s_ "value_1");
   (s_ "value_type_to_string")]);
   ([(s_ "some_graph")], [(s_ "some_graph");
   (s_ "some_graph_as_value")])]
  [(s_ "voidsome_graph_fromconstJson::Value&std::stringSomeGraph*parse::Errors*");
   (s_ "Json::Valueserialize_some_graphconstSomeGraph&")]
  [(s_ "SomeGraph{boost::filesystem::pathsome_pathboost::filesystem::pathunconstrained_path}")]
  [(s_ "boost/filesystem/path.hpp")] [(s_ "boost/filesystem/path.hpp");
   (s_ "json/json.h")] [(s_ "cstring");
   (s_ "memory");
   (s_ "regex");
   (s_ "sstream");
   (s_ "stdexcept");
   (s_ "string");
   (s_ "utility")] [(s_ "string");
   (s_ "vector")].

(** test_cases/general/primitive_type/string/cpp/test_generate *)
Definition cpp_general_primitive_type_string : cpp_recorded_source :=
  CppSource
  [(s_ "voidsome_graph_fromconstJson::Value&valuestd::stringrefSomeGraph*targetparse::Errors*errors{iferrors==nullptr{throwstd::invalid_argument""Unexpected null errors""}if!errors->empty{throwstd::invalid_argument""Unexpected non-empty errors""}if!value.isObject{constautoexpected_but_got""Expected an object, but got: ""errors->addrefmessageexpected_but_gotstrlenexpected_but_gotvalue_type_to_stringvalue.typereturn}if!value.isMember""some_str""{errors->addref""Property is missing: some_str""}else{constJson::Value&value_0value[""some_str""]if!value_0.isString{constautoexpected_but_got""Expected a string, but got: ""errors->addstd::stringref.append""/some_str""messageexpected_but_gotstrlenexpected_but_gotvalue_type_to_stringvalue_0.type}else{conststd::regexregex_0""^[a-zA-Z]*$""conststd::stringcast_0value_0.asStringboolok_0trueif!std::regex_matchcast_0regex_0{constautoexpected_but_got""Expected to match ^[a-zA-Z]*$, but got: ""errors->addstd::stringref.append""/some_str""messageexpected_but_gotstrlenexpected_but_gotcast_0ok_0false}ifok_0{target->some_strcast_0}}}iferrors->full{return}if!value.isMember""unconstrained_str""{errors->addref""Property is missing: unconstrained_str""}else{constJson::Value&value_1value[""unconstrained_str""]if!value_1.isString{constautoexpected_but_got""Expected a string, but got: ""errors->addstd::stringref.append""/unconstrained_str""messageexpected_but_gotstrlenexpected_but_gotvalue_type_to_stringvalue_1.type}else{target->unconstrained_strvalue_1.asString}}iferrors->full{return}}");
   (s_ "Json::Valueserialize_some_graphconstSomeGraph&some_graph{Json::Valuesome_graph_as_valuesome_graph_as_value[""some_str""]some_graph.some_strsome_graph_as_value[""unconstrained_str""]some_graph.unconstrained_strreturnsome_graph_as_value}")]
  [([(s_ "value");
   (s_ "ref");
   (s_ "target");
   (s_ "errors")], [(s_ "cast_0");
   (s_ "errors");
   (s_ "expected_but_got");
   (s_ "message");
   (s_ "ok_0");
   (s_ "ref");
   (s_ "regex_0");
   (s_ "strlen");
   (s_ "target");
   (s_ "value");
   (s_ "value_0");
   (s_ "value_1");
   (s_ "value_type_to_string")]);
   ([(s_ "some_graph")], [(s_ "some_graph");
   (s_ "some_graph_as_value")])]
  [(s_ "voidsome_graph_fromconstJson::Value&std::stringSomeGraph*parse::Errors*");
   (s_ "Json::Valueserialize_some_graphconstSomeGraph&")]
  [(s_ "SomeGraph{std::stringsome_strstd::stringunconstrained_str}")]
  [(s_ "string")] [(s_ "json/json.h");
   (s_ "string")] [(s_ "cstring");
   (s_ "memory");
   (s_ "regex");
   (s_ "sstream");
   (s_ "stdexcept");
   (s_ "string");
   (s_ "utility")] [(s_ "string");
   (s_ "vector")].

(** test_cases/general/primitive_type/time/cpp/test_generate *)
Definition cpp_general_primitive_type_time : cpp_recorded_source :=
  CppSource
  [(s_ "voidsome_graph_fromconstJson::Value&valuestd::stringrefSomeGraph*targetparse::Errors*errors{iferrors==nullptr{throwstd::invalid_argument""Unexpected null errors""}if!errors->empty{throwstd::invalid_argument""Unexpected non-empty errors""}if!value.isObject{constautoexpected_but_got""Expected an object, but got: ""errors->addrefmessageexpected_but_gotstrlenexpected_but_gotvalue_type_to_stringvalue.typereturn}if!value.isMember""some_time""{errors->addref""Property is missing: some_time""}else{constJson::Value&value_0value[""some_time""]if!value_0.isString{constautoexpected_but_got""Expected a string, but got: ""errors->addstd::stringref.append""/some_time""messageexpected_but_gotstrlenexpected_but_gotvalue_type_to_stringvalue_0.type}else{conststd::stringcast_0value_0.asStringstructtmtm_0tm{0}char*ret_0strptimecast_0.c_str""%H-%M-%S""&tm_0ifret_0==nullptr||*ret_0!='\0'{constautoexpected_but_got""Expected to strptime %H-%M-%S, but got: ""errors->addstd::stringref.append""/some_time""messageexpected_but_gotstrlenexpected_but_gotcast_0}else{target->some_timetm_0}}}iferrors->full{return}if!value.isMember""formatless_time""{errors->addref""Property is missing: formatless_time""}else{constJson::Value&value_1value[""formatless_time""]if!value_1.isString{constautoexpected_but_got""Expected a string, but got: ""errors->addstd::stringref.append""/formatless_time""messageexpected_but_gotstrlenexpected_but_gotvalue_type_to_stringvalue_1.type}else{conststd::stringcast_1value_1.asStringstructtmtm_1tm{0}char*ret_1strptimecast_1.c_str""%H:%M:%S""&tm_1ifret_1==nullptr||*ret_1!='\0'{constautoexpected_but_got""Expected to strptime %H:%M:%S, but got: ""errors->addstd::stringref.append""/formatless_time""messageexpected_but_gotstrlenexpected_but_gotcast_1}else{target->formatless_timetm_1}}}iferrors->full{return}}");
   (s_ "Json::Valueserialize_some_graphconstSomeGraph&some_graph{Json::Valuesome_graph_as_valuesome_graph_as_value[""some_time""]tm_to_stringsome_graph.some_time""%H-%M-%S""some_graph_as_value[""formatless_time""]tm_to_stringsome_graph.formatless_time""%H:%M:%S""returnsome_graph_as_value}")]
  [([(s_ "value");
   (s_ "ref");
   (s_ "target");
   (s_ "errors")], [(s_ "cast_0");
   (s_ "cast_1");
   (s_ "errors");
   (s_ "expected_but_got");
   (s_ "message");
   (s_ "ref");
   (s_ "ret_0");
   (s_ "ret_1");
   (s_ "strlen");
   (s_ "strptime");
   (s_ "target");
   (s_ "tm");
   (s_ "tm_0");
   (s_ "tm_1");
   (s_ "value");
   (s_ "value_0");
   (s_ "value_1");
   (s_ "value_type_to_string")]);
   ([(s_ "some_graph")], [(s_ "some_graph");
   (s_ "some_graph_as_value");
   (s_ "tm_to_string")])]
  [(s_ "voidsome_graph_fromconstJson::Value&std::stringSomeGraph*parse::Errors*");
   (s_ "Json::Valueserialize_some_graphconstSomeGraph&")]
  [(s_ "SomeGraph{structtmsome_timetm{0}structtmformatless_timetm{0}}")]
  [(s_ "ctime")] [(s_ "json/json.h")] [(s_ "cstring");
   (s_ "memory");
   (s_ "sstream");
   (s_ "stdexcept");
   (s_ "string");
   (s_ "utility")] [(s_ "string");
   (s_ "vector")].

(** test_cases/general/primitive_type/time_zone/cpp/test_generate *)
Definition cpp_general_primitive_type_time_zone : cpp_recorded_source :=
  CppSource
  [(s_ "voidsome_graph_fromconstJson::Value&valuestd::stringrefSomeGraph*targetparse::Errors*errors{iferrors==nullptr{throwstd::invalid_argument""Unexpected null errors""}if!errors->empty{throwstd::invalid_argument""Unexpected non-empty errors""}if!value.isObject{constautoexpected_but_got""Expected an object, but got: ""errors->addrefmessageexpected_but_gotstrlenexpected_but_gotvalue_type_to_stringvalue.typereturn}if!value.isMember""some_time_zone""{errors->addref""Property is missing: some_time_zone""}else{constJson::Value&value_0value[""some_time_zone""]if!value_0.isString{constautoexpected_but_got""Expected a string, but got: ""errors->addstd::stringref.append""/some_time_zone""messageexpected_but_gotstrlenexpected_but_gotvalue_type_to_stringvalue_0.type}else{target->some_time_zonevalue_0.asString}}iferrors->full{return}}");
   (s_ "Json::Valueserialize_some_graphconstSomeGraph&some_graph{Json::Valuesome_graph_as_valuesome_graph_as_value[""some_time_zone""]some_graph.some_time_zonereturnsome_graph_as_value}")]
  [([(s_ "value");
   (s_ "ref");
   (s_ "target");
   (s_ "errors")], [(s_ "errors");
   (s_ "expected_but_got");
   (s_ "message");
   (s_ "ref");
   (s_ "strlen");
   (s_ "target");
   (s_ "value");
   (s_ "value_0");
   (s_ "value_type_to_string")]);
   ([(s_ "some_graph")], [(s_ "some_graph");
   (s_ "some_graph_as_value")])]
  [(s_ "voidsome_graph_fromconstJson::Value&std::stringSomeGraph*parse::Errors*");
   (s_ "Json::Valueserialize_some_graphconstSomeGraph&")]
  [(s_ "SomeGraph{std::stringsome_time_zone}")]
  [(s_ "string")] [(s_ "json/json.h")] [(s_ "cstring");
   (s_ "memory");
   (s_ "sstream");
   (s_ "stdexcept");
   (s_ "string");
   (s_ "utility")] [(s_ "string");
   (s_ "vector")].

Definition cpp_sources : list (jval * cpp_recorded_source) := [
(schema_cpp_boost_optional, cpp_cpp_boost_optional);
(schema_cpp_class_error_causes_no_conflict, cpp_cpp_class_error_causes_no_conflict);
(schema_cpp_datetime_library_date_date, cpp_cpp_datetime_library_date_date);
(schema_cpp_datetime_library_date_datetime, cpp_cpp_datetime_library_date_datetime);
(schema_cpp_datetime_library_date_optional_timezone, cpp_cpp_datetime_library_date_optional_timezone);
(schema_cpp_datetime_library_date_time, cpp_cpp_datetime_library_date_time);
(schema_cpp_datetime_library_date_timezone, cpp_cpp_datetime_library_date_timezone);
(schema_cpp_primitive_types_duration, cpp_cpp_primitive_types_duration);
(schema_cpp_primitive_types_float, cpp_cpp_primitive_types_float);
(schema_cpp_primitive_types_integer, cpp_cpp_primitive_types_integer);
(schema_docs_schema_introductory_example, cpp_docs_schema_introductory_example);
(schema_general_array_fails_invalid_types, cpp_general_array_fails_invalid_types);
(schema_general_array_maximum_size, cpp_general_array_maximum_size);
(schema_general_array_minimum_size, cpp_general_array_minimum_size);
(schema_general_array_of_array, cpp_general_array_of_array);
(schema_general_array_of_boolean, cpp_general_array_of_boolean);
(schema_general_array_of_class_ref, cpp_general_array_of_class_ref);
(schema_general_array_of_date, cpp_general_array_of_date);
(schema_general_array_of_datetime, cpp_general_array_of_datetime);
(schema_general_array_of_duration, cpp_general_array_of_duration);
(schema_general_array_of_embed, cpp_general_array_of_embed);
(schema_general_array_of_float, cpp_general_array_of_float);
(schema_general_array_of_integer, cpp_general_array_of_integer);
(schema_general_array_of_map, cpp_general_array_of_map);
(schema_general_array_of_path, cpp_general_array_of_path);
(schema_general_array_of_string, cpp_general_array_of_string);
(schema_general_array_of_time, cpp_general_array_of_time);
(schema_general_array_of_time_zone, cpp_general_array_of_time_zone);
(schema_general_class, cpp_general_class);
(schema_general_class_ref_in_embed, cpp_general_class_ref_in_embed);
(schema_general_embed, cpp_general_embed);
(schema_general_forward_declaration, cpp_general_forward_declaration);
(schema_general_json_property, cpp_general_json_property);
(schema_general_map_invalid_type, cpp_general_map_invalid_type);
(schema_general_map_of_array, cpp_general_map_of_array);
(schema_general_map_of_boolean, cpp_general_map_of_boolean);
(schema_general_map_of_class_ref, cpp_general_map_of_class_ref);
(schema_general_map_of_date, cpp_general_map_of_date);
(schema_general_map_of_datetime, cpp_general_map_of_datetime);
(schema_general_map_of_duration, cpp_general_map_of_duration);
(schema_general_map_of_embed, cpp_general_map_of_embed);
(schema_general_map_of_float, cpp_general_map_of_float);
(schema_general_map_of_integer, cpp_general_map_of_integer);
(schema_general_map_of_map, cpp_general_map_of_map);
(schema_general_map_of_path, cpp_general_map_of_path);
(schema_general_map_of_string, cpp_general_map_of_string);
(schema_general_map_of_time_zone, cpp_general_map_of_time_zone);
(schema_general_optional_in_class, cpp_general_optional_in_class);
(schema_general_optional_in_embed, cpp_general_optional_in_embed);
(schema_general_optional_in_graph, cpp_general_optional_in_graph);
(schema_general_primitive_type_boolean, cpp_general_primitive_type_boolean);
(schema_general_primitive_type_date, cpp_general_primitive_type_date);
(schema_general_primitive_type_datetime, cpp_general_primitive_type_datetime);
(schema_general_primitive_type_duration, cpp_general_primitive_type_duration);
(schema_general_primitive_type_float, cpp_general_primitive_type_float);
(schema_general_primitive_type_integer, cpp_general_primitive_type_integer);
(schema_general_primitive_type_path, cpp_general_primitive_type_path);
(schema_general_primitive_type_string, cpp_general_primitive_type_string);
(schema_general_primitive_type_time, cpp_general_primitive_type_time);
(schema_general_primitive_type_time_zone, cpp_general_primitive_type_time_zone)].
