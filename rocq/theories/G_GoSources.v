(** Generated by tools/golden_go.py from /repo/test_cases: the recorded Go sources, normalised
    as described in G_GoText.v. *)
From Coq Require Import String List NArith.
From Verif Require Import Base M_Schema G_Cases.
Import ListNotations.

Record go_source := GoSource {
  gs_from : list str; gs_to : list str; gs_types : list str; gs_regexes : list str;
  (** the parameters with the results, and the names in the body *)
  gs_from_names : list (list str * list str); gs_to_names : list (list str * list str);
  gs_from_imports : list str; gs_to_imports : list str; gs_types_imports : list str;
  gs_from_test_imports : list str; gs_to_test_imports : list str; gs_parse_imports : list str }.

(** test_cases/docs/schema/introductory_example/go/test_generate *)
Definition go_docs_schema_introductory_example : go_source :=
  GoSource
  [(s_ "funcPersonFromJSONablevalueinterface{}idstringrefstringtarget*Personerrors*Errors{iftarget==nil{panic""unexpected nil target""}iferrors==nil{panic""unexpected nil errors""}if!errors.Empty{panic""unexpected non-empty errors""}castok:=value.map[string]interface{}if!ok{errors.Addreffmt.Sprintf""expected a map[string]interface{}, but got: %T""valuereturn}target.ID=idvalue0ok0:=cast[""full_name""]if!ok0{errors.Addref""property is missing: full_name""}else{cast1ok1:=value0.stringif!ok1{errors.Addstrings.Join[]string{ref""full_name""}""/""fmt.Sprintf""expected a string, but got: %T""value0}else{target.FullName=cast1}}iferrors.Full{return}value2ok2:=cast[""birthday""]if!ok2{errors.Addref""property is missing: birthday""}else{cast3ok3:=value2.stringif!ok3{errors.Addstrings.Join[]string{ref""birthday""}""/""fmt.Sprintf""expected a string, but got: %T""value2}else{target3err3:=time.Parse""2006-01-02""cast3iferr3!=nil{errors.Addstrings.Join[]string{ref""birthday""}""/""fmt.Sprintf""expected layout 2006-01-02, got: %s""cast3}else{target.Birthday=target3}}}iferrors.Full{return}value4ok4:=cast[""address""]if!ok4{errors.Addref""property is missing: address""}else{AddressFromJSONablevalue4strings.Join[]string{ref""address""}""/""&target.Addresserrors}iferrors.Full{return}return}");
   (s_ "funcAddressFromJSONablevalueinterface{}refstringtarget*Addresserrors*Errors{iftarget==nil{panic""unexpected nil target""}iferrors==nil{panic""unexpected nil errors""}if!errors.Empty{panic""unexpected non-empty errors""}castok:=value.map[string]interface{}if!ok{errors.Addreffmt.Sprintf""expected a map[string]interface{}, but got: %T""valuereturn}value0ok0:=cast[""text""]if!ok0{errors.Addref""property is missing: text""}else{cast1ok1:=value0.stringif!ok1{errors.Addstrings.Join[]string{ref""text""}""/""fmt.Sprintf""expected a string, but got: %T""value0}else{target.Text=cast1}}iferrors.Full{return}return}");
   (s_ "funcPipelineFromJSONablevalueinterface{}refstringtarget*Pipelineerrors*Errors{iftarget==nil{panic""unexpected nil target""}iferrors==nil{panic""unexpected nil errors""}if!errors.Empty{panic""unexpected non-empty errors""}castok:=value.map[string]interface{}if!ok{errors.Addreffmt.Sprintf""expected a map[string]interface{}, but got: %T""valuereturn}personsRef:=ref+""/persons""varpersonsOkboolvarpersonsValueinterface{}varpersonsMapmap[string]interface{}personsValuepersonsOk=cast[""persons""]ifpersonsOk{personsMapok=personsValue.map[string]interface{}if!ok{errors.AddpersonsReffmt.Sprintf""expected a map[string]interface{}, but got: %T""personsValue}else{target.Persons=makemap[string]*Personforid:=rangepersonsMap{target.Persons[id]=&Person{}}}}if!errors.Empty{return}ifpersonsOk{foridvalue:=rangepersonsMap{PersonFromJSONablevalueidstrings.Join[]string{personsRefid}""/""target.Persons[id]errorsiferrors.Full{break}}}iferrors.Full{return}value0ok0:=cast[""maintainer""]if!ok0{errors.Addref""property is missing: maintainer""}else{cast1ok1:=value0.stringif!ok1{errors.Addstrings.Join[]string{ref""maintainer""}""/""fmt.Sprintf""expected a string, but got: %T""value0}else{target1ok1:=target.Persons[cast1]if!ok1{errors.Addstrings.Join[]string{ref""maintainer""}""/""fmt.Sprintf""reference to an instance of class Person not found: %s""value0}else{target.Maintainer=target1}}}iferrors.Full{return}return}")]
  [(s_ "funcPersonToJSONableinstance*Persontargetmap[string]interface{}{ifinstance==nil{panic""unexpected nil instance""}target=makemap[string]interface{}target[""full_name""]=instance.FullNametarget[""birthday""]=instance.Birthday.Format""2006-01-02""target[""address""]=AddressToJSONable&instance.Addressreturn}");
   (s_ "funcAddressToJSONableinstance*Addresstargetmap[string]interface{}{ifinstance==nil{panic""unexpected nil instance""}target=makemap[string]interface{}target[""text""]=instance.Textreturn}");
   (s_ "funcPipelineToJSONableinstance*Pipelinetargetmap[string]interface{}errerror{ifinstance==nil{panic""unexpected nil instance""}target=makemap[string]interface{}deferfunc{iferr!=nil{target=nil}}target[""maintainer""]=instance.Maintainer.IDifleninstance.Persons>0{targetPersons:=makemap[string]interface{}forid:=rangeinstance.Persons{personInstance:=instance.Persons[id]ifid!=personInstance.ID{err=fmt.Errorf""expected the instance of Person to have the ID %s according to the registry, but got: %s""idpersonInstance.IDreturn}targetPersons[id]=PersonToJSONablepersonInstance}target[""persons""]=targetPersons}return}")]
  [(s_ "typeAddressstruct{Textstring}");
   (s_ "typePersonstruct{IDstringFullNamestringBirthdaytime.TimeAddressAddress}");
   (s_ "typePipelinestruct{Personsmap[string]*PersonMaintainer*Person}")]
  []
  [([(s_ "value");
   (s_ "id");
   (s_ "ref");
   (s_ "target");
   (s_ "errors")], [(s_ "AddressFromJSONable");
   (s_ "cast");
   (s_ "cast1");
   (s_ "cast3");
   (s_ "err3");
   (s_ "errors");
   (s_ "fmt");
   (s_ "id");
   (s_ "nil");
   (s_ "ok");
   (s_ "ok0");
   (s_ "ok1");
   (s_ "ok2");
   (s_ "ok3");
   (s_ "ok4");
   (s_ "panic");
   (s_ "ref");
   (s_ "string");
   (s_ "strings");
   (s_ "target");
   (s_ "target3");
   (s_ "time");
   (s_ "value");
   (s_ "value0");
   (s_ "value2");
   (s_ "value4")]);
   ([(s_ "value");
   (s_ "ref");
   (s_ "target");
   (s_ "errors")], [(s_ "cast");
   (s_ "cast1");
   (s_ "errors");
   (s_ "fmt");
   (s_ "nil");
   (s_ "ok");
   (s_ "ok0");
   (s_ "ok1");
   (s_ "panic");
   (s_ "ref");
   (s_ "string");
   (s_ "strings");
   (s_ "target");
   (s_ "value");
   (s_ "value0")]);
   ([(s_ "value");
   (s_ "ref");
   (s_ "target");
   (s_ "errors")], [(s_ "Person");
   (s_ "PersonFromJSONable");
   (s_ "bool");
   (s_ "cast");
   (s_ "cast1");
   (s_ "errors");
   (s_ "fmt");
   (s_ "id");
   (s_ "make");
   (s_ "nil");
   (s_ "ok");
   (s_ "ok0");
   (s_ "ok1");
   (s_ "panic");
   (s_ "personsMap");
   (s_ "personsOk");
   (s_ "personsRef");
   (s_ "personsValue");
   (s_ "ref");
   (s_ "string");
   (s_ "strings");
   (s_ "target");
   (s_ "target1");
   (s_ "value");
   (s_ "value0")])]
  [([(s_ "instance");
   (s_ "target")], [(s_ "AddressToJSONable");
   (s_ "instance");
   (s_ "make");
   (s_ "nil");
   (s_ "panic");
   (s_ "string");
   (s_ "target")]);
   ([(s_ "instance");
   (s_ "target")], [(s_ "instance");
   (s_ "make");
   (s_ "nil");
   (s_ "panic");
   (s_ "string");
   (s_ "target")]);
   ([(s_ "instance");
   (s_ "target");
   (s_ "err")], [(s_ "PersonToJSONable");
   (s_ "err");
   (s_ "fmt");
   (s_ "id");
   (s_ "instance");
   (s_ "len");
   (s_ "make");
   (s_ "nil");
   (s_ "panic");
   (s_ "personInstance");
   (s_ "string");
   (s_ "target");
   (s_ "targetPersons")])]
  [(s_ "fmt");
   (s_ "strings");
   (s_ "time")] [(s_ "fmt")] [(s_ "time")] [] [] [].

(** test_cases/general/array/fails/invalid_types/go/test_generate *)
Definition go_general_array_fails_invalid_types : go_source :=
  GoSource
  [(s_ "funcSomeGraphFromJSONablevalueinterface{}refstringtarget*SomeGrapherrors*Errors{iftarget==nil{panic""unexpected nil target""}iferrors==nil{panic""unexpected nil errors""}if!errors.Empty{panic""unexpected non-empty errors""}castok:=value.map[string]interface{}if!ok{errors.Addreffmt.Sprintf""expected a map[string]interface{}, but got: %T""valuereturn}value0ok0:=cast[""array_of_booleans""]if!ok0{errors.Addref""property is missing: array_of_booleans""}else{cast1ok1:=value0.[]interface{}if!ok1{errors.Addstrings.Join[]string{ref""array_of_booleans""}""/""fmt.Sprintf""expected a []interface{}, but got: %T""value0}else{target1:=make[]boollencast1fori1:=rangecast1{cast2ok2:=cast1[i1].boolif!ok2{errors.Addstrings.Join[]string{ref""array_of_booleans""strconv.Itoai1}""/""fmt.Sprintf""expected a bool, but got: %T""cast1[i1]}else{target1[i1]=cast2}iferrors.Full{break}}target.ArrayOfBooleans=target1}}iferrors.Full{return}return}")]
  [(s_ "funcSomeGraphToJSONableinstance*SomeGraphtargetmap[string]interface{}errerror{ifinstance==nil{panic""unexpected nil instance""}target=makemap[string]interface{}deferfunc{iferr!=nil{target=nil}}count0:=leninstance.ArrayOfBooleansslice0:=instance.ArrayOfBooleanstarget0:=make[]interface{}count0fori0:=0i0<count0i0++{target0[i0]=slice0[i0]}target[""array_of_booleans""]=target0return}")]
  [(s_ "typeSomeGraphstruct{ArrayOfBooleans[]bool}")]
  []
  [([(s_ "value");
   (s_ "ref");
   (s_ "target");
   (s_ "errors")], [(s_ "bool");
   (s_ "cast");
   (s_ "cast1");
   (s_ "cast2");
   (s_ "errors");
   (s_ "fmt");
   (s_ "i1");
   (s_ "len");
   (s_ "make");
   (s_ "nil");
   (s_ "ok");
   (s_ "ok0");
   (s_ "ok1");
   (s_ "ok2");
   (s_ "panic");
   (s_ "ref");
   (s_ "strconv");
   (s_ "string");
   (s_ "strings");
   (s_ "target");
   (s_ "target1");
   (s_ "value");
   (s_ "value0")])]
  [([(s_ "instance");
   (s_ "target");
   (s_ "err")], [(s_ "count0");
   (s_ "err");
   (s_ "i0");
   (s_ "instance");
   (s_ "len");
   (s_ "make");
   (s_ "nil");
   (s_ "panic");
   (s_ "slice0");
   (s_ "string");
   (s_ "target");
   (s_ "target0")])]
  [(s_ "fmt");
   (s_ "strconv");
   (s_ "strings")] [] [] [] [] [].

(** test_cases/general/array/maximum_size/go/test_generate *)
Definition go_general_array_maximum_size : go_source :=
  GoSource
  [(s_ "funcSomeGraphFromJSONablevalueinterface{}refstringtarget*SomeGrapherrors*Errors{iftarget==nil{panic""unexpected nil target""}iferrors==nil{panic""unexpected nil errors""}if!errors.Empty{panic""unexpected non-empty errors""}castok:=value.map[string]interface{}if!ok{errors.Addreffmt.Sprintf""expected a map[string]interface{}, but got: %T""valuereturn}value0ok0:=cast[""array_of_booleans""]if!ok0{errors.Addref""property is missing: array_of_booleans""}else{cast1ok1:=value0.[]interface{}if!ok1{errors.Addstrings.Join[]string{ref""array_of_booleans""}""/""fmt.Sprintf""expected a []interface{}, but got: %T""value0}else{iflencast1>1{errors.Addstrings.Join[]string{ref""array_of_booleans""}""/""fmt.Sprintf""expected an array of maximum size 1, but got: %d""lencast1}else{target1:=make[]boollencast1fori1:=rangecast1{cast2ok2:=cast1[i1].boolif!ok2{errors.Addstrings.Join[]string{ref""array_of_booleans""strconv.Itoai1}""/""fmt.Sprintf""expected a bool, but got: %T""cast1[i1]}else{target1[i1]=cast2}iferrors.Full{break}}target.ArrayOfBooleans=target1}}}iferrors.Full{return}return}")]
  [(s_ "funcSomeGraphToJSONableinstance*SomeGraphtargetmap[string]interface{}errerror{ifinstance==nil{panic""unexpected nil instance""}target=makemap[string]interface{}deferfunc{iferr!=nil{target=nil}}count0:=leninstance.ArrayOfBooleansslice0:=instance.ArrayOfBooleanstarget0:=make[]interface{}count0fori0:=0i0<count0i0++{target0[i0]=slice0[i0]}target[""array_of_booleans""]=target0return}")]
  [(s_ "typeSomeGraphstruct{ArrayOfBooleans[]bool}")]
  []
  [([(s_ "value");
   (s_ "ref");
   (s_ "target");
   (s_ "errors")], [(s_ "bool");
   (s_ "cast");
   (s_ "cast1");
   (s_ "cast2");
   (s_ "errors");
   (s_ "fmt");
   (s_ "i1");
   (s_ "len");
   (s_ "make");
   (s_ "nil");
   (s_ "ok");
   (s_ "ok0");
   (s_ "ok1");
   (s_ "ok2");
   (s_ "panic");
   (s_ "ref");
   (s_ "strconv");
   (s_ "string");
   (s_ "strings");
   (s_ "target");
   (s_ "target1");
   (s_ "value");
   (s_ "value0")])]
  [([(s_ "instance");
   (s_ "target");
   (s_ "err")], [(s_ "count0");
   (s_ "err");
   (s_ "i0");
   (s_ "instance");
   (s_ "len");
   (s_ "make");
   (s_ "nil");
   (s_ "panic");
   (s_ "slice0");
   (s_ "string");
   (s_ "target");
   (s_ "target0")])]
  [(s_ "fmt");
   (s_ "strconv");
   (s_ "strings")] [] [] [] [] [].

(** test_cases/general/array/minimum_size/go/test_generate *)
Definition go_general_array_minimum_size : go_source :=
  GoSource
  [(s_ "funcSomeGraphFromJSONablevalueinterface{}refstringtarget*SomeGrapherrors*Errors{iftarget==nil{panic""unexpected nil target""}iferrors==nil{panic""unexpected nil errors""}if!errors.Empty{panic""unexpected non-empty errors""}castok:=value.map[string]interface{}if!ok{errors.Addreffmt.Sprintf""expected a map[string]interface{}, but got: %T""valuereturn}value0ok0:=cast[""array_of_booleans""]if!ok0{errors.Addref""property is missing: array_of_booleans""}else{cast1ok1:=value0.[]interface{}if!ok1{errors.Addstrings.Join[]string{ref""array_of_booleans""}""/""fmt.Sprintf""expected a []interface{}, but got: %T""value0}else{iflencast1<1{errors.Addstrings.Join[]string{ref""array_of_booleans""}""/""fmt.Sprintf""expected an array of minimum size 1, but got: %d""lencast1}else{target1:=make[]boollencast1fori1:=rangecast1{cast2ok2:=cast1[i1].boolif!ok2{errors.Addstrings.Join[]string{ref""array_of_booleans""strconv.Itoai1}""/""fmt.Sprintf""expected a bool, but got: %T""cast1[i1]}else{target1[i1]=cast2}iferrors.Full{break}}target.ArrayOfBooleans=target1}}}iferrors.Full{return}return}")]
  [(s_ "funcSomeGraphToJSONableinstance*SomeGraphtargetmap[string]interface{}errerror{ifinstance==nil{panic""unexpected nil instance""}target=makemap[string]interface{}deferfunc{iferr!=nil{target=nil}}count0:=leninstance.ArrayOfBooleansslice0:=instance.ArrayOfBooleanstarget0:=make[]interface{}count0fori0:=0i0<count0i0++{target0[i0]=slice0[i0]}target[""array_of_booleans""]=target0return}")]
  [(s_ "typeSomeGraphstruct{ArrayOfBooleans[]bool}")]
  []
  [([(s_ "value");
   (s_ "ref");
   (s_ "target");
   (s_ "errors")], [(s_ "bool");
   (s_ "cast");
   (s_ "cast1");
   (s_ "cast2");
   (s_ "errors");
   (s_ "fmt");
   (s_ "i1");
   (s_ "len");
   (s_ "make");
   (s_ "nil");
   (s_ "ok");
   (s_ "ok0");
   (s_ "ok1");
   (s_ "ok2");
   (s_ "panic");
   (s_ "ref");
   (s_ "strconv");
   (s_ "string");
   (s_ "strings");
   (s_ "target");
   (s_ "target1");
   (s_ "value");
   (s_ "value0")])]
  [([(s_ "instance");
   (s_ "target");
   (s_ "err")], [(s_ "count0");
   (s_ "err");
   (s_ "i0");
   (s_ "instance");
   (s_ "len");
   (s_ "make");
   (s_ "nil");
   (s_ "panic");
   (s_ "slice0");
   (s_ "string");
   (s_ "target");
   (s_ "target0")])]
  [(s_ "fmt");
   (s_ "strconv");
   (s_ "strings")] [] [] [] [] [].

(** test_cases/general/array/of/array/go/test_generate *)
Definition go_general_array_of_array : go_source :=
  GoSource
  [(s_ "funcSomeGraphFromJSONablevalueinterface{}refstringtarget*SomeGrapherrors*Errors{iftarget==nil{panic""unexpected nil target""}iferrors==nil{panic""unexpected nil errors""}if!errors.Empty{panic""unexpected non-empty errors""}castok:=value.map[string]interface{}if!ok{errors.Addreffmt.Sprintf""expected a map[string]interface{}, but got: %T""valuereturn}value0ok0:=cast[""array_of_arrays""]if!ok0{errors.Addref""property is missing: array_of_arrays""}else{cast1ok1:=value0.[]interface{}if!ok1{errors.Addstrings.Join[]string{ref""array_of_arrays""}""/""fmt.Sprintf""expected a []interface{}, but got: %T""value0}else{target1:=make[][]boollencast1fori1:=rangecast1{cast2ok2:=cast1[i1].[]interface{}if!ok2{errors.Addstrings.Join[]string{ref""array_of_arrays""strconv.Itoai1}""/""fmt.Sprintf""expected a []interface{}, but got: %T""cast1[i1]}else{target2:=make[]boollencast2fori2:=rangecast2{cast3ok3:=cast2[i2].boolif!ok3{errors.Addstrings.Join[]string{ref""array_of_arrays""strconv.Itoai1strconv.Itoai2}""/""fmt.Sprintf""expected a bool, but got: %T""cast2[i2]}else{target2[i2]=cast3}iferrors.Full{break}}target1[i1]=target2}iferrors.Full{break}}target.ArrayOfArrays=target1}}iferrors.Full{return}return}")]
  [(s_ "funcSomeGraphToJSONableinstance*SomeGraphtargetmap[string]interface{}errerror{ifinstance==nil{panic""unexpected nil instance""}target=makemap[string]interface{}deferfunc{iferr!=nil{target=nil}}count0:=leninstance.ArrayOfArraysslice0:=instance.ArrayOfArraystarget0:=make[]interface{}count0fori0:=0i0<count0i0++{count1:=lenslice0[i0]slice1:=slice0[i0]target1:=make[]interface{}count1fori1:=0i1<count1i1++{target1[i1]=slice1[i1]}target0[i0]=target1}target[""array_of_arrays""]=target0return}")]
  [(s_ "typeSomeGraphstruct{ArrayOfArrays[][]bool}")]
  []
  [([(s_ "value");
   (s_ "ref");
   (s_ "target");
   (s_ "errors")], [(s_ "bool");
   (s_ "cast");
   (s_ "cast1");
   (s_ "cast2");
   (s_ "cast3");
   (s_ "errors");
   (s_ "fmt");
   (s_ "i1");
   (s_ "i2");
   (s_ "len");
   (s_ "make");
   (s_ "nil");
   (s_ "ok");
   (s_ "ok0");
   (s_ "ok1");
   (s_ "ok2");
   (s_ "ok3");
   (s_ "panic");
   (s_ "ref");
   (s_ "strconv");
   (s_ "string");
   (s_ "strings");
   (s_ "target");
   (s_ "target1");
   (s_ "target2");
   (s_ "value");
   (s_ "value0")])]
  [([(s_ "instance");
   (s_ "target");
   (s_ "err")], [(s_ "count0");
   (s_ "count1");
   (s_ "err");
   (s_ "i0");
   (s_ "i1");
   (s_ "instance");
   (s_ "len");
   (s_ "make");
   (s_ "nil");
   (s_ "panic");
   (s_ "slice0");
   (s_ "slice1");
   (s_ "string");
   (s_ "target");
   (s_ "target0");
   (s_ "target1")])]
  [(s_ "fmt");
   (s_ "strconv");
   (s_ "strings")] [] [] [] [] [].

(** test_cases/general/array/of/boolean/go/test_generate *)
Definition go_general_array_of_boolean : go_source :=
  GoSource
  [(s_ "funcSomeGraphFromJSONablevalueinterface{}refstringtarget*SomeGrapherrors*Errors{iftarget==nil{panic""unexpected nil target""}iferrors==nil{panic""unexpected nil errors""}if!errors.Empty{panic""unexpected non-empty errors""}castok:=value.map[string]interface{}if!ok{errors.Addreffmt.Sprintf""expected a map[string]interface{}, but got: %T""valuereturn}value0ok0:=cast[""array_of_booleans""]if!ok0{errors.Addref""property is missing: array_of_booleans""}else{cast1ok1:=value0.[]interface{}if!ok1{errors.Addstrings.Join[]string{ref""array_of_booleans""}""/""fmt.Sprintf""expected a []interface{}, but got: %T""value0}else{target1:=make[]boollencast1fori1:=rangecast1{cast2ok2:=cast1[i1].boolif!ok2{errors.Addstrings.Join[]string{ref""array_of_booleans""strconv.Itoai1}""/""fmt.Sprintf""expected a bool, but got: %T""cast1[i1]}else{target1[i1]=cast2}iferrors.Full{break}}target.ArrayOfBooleans=target1}}iferrors.Full{return}return}")]
  [(s_ "funcSomeGraphToJSONableinstance*SomeGraphtargetmap[string]interface{}errerror{ifinstance==nil{panic""unexpected nil instance""}target=makemap[string]interface{}deferfunc{iferr!=nil{target=nil}}count0:=leninstance.ArrayOfBooleansslice0:=instance.ArrayOfBooleanstarget0:=make[]interface{}count0fori0:=0i0<count0i0++{target0[i0]=slice0[i0]}target[""array_of_booleans""]=target0return}")]
  [(s_ "typeSomeGraphstruct{ArrayOfBooleans[]bool}")]
  []
  [([(s_ "value");
   (s_ "ref");
   (s_ "target");
   (s_ "errors")], [(s_ "bool");
   (s_ "cast");
   (s_ "cast1");
   (s_ "cast2");
   (s_ "errors");
   (s_ "fmt");
   (s_ "i1");
   (s_ "len");
   (s_ "make");
   (s_ "nil");
   (s_ "ok");
   (s_ "ok0");
   (s_ "ok1");
   (s_ "ok2");
   (s_ "panic");
   (s_ "ref");
   (s_ "strconv");
   (s_ "string");
   (s_ "strings");
   (s_ "target");
   (s_ "target1");
   (s_ "value");
   (s_ "value0")])]
  [([(s_ "instance");
   (s_ "target");
   (s_ "err")], [(s_ "count0");
   (s_ "err");
   (s_ "i0");
   (s_ "instance");
   (s_ "len");
   (s_ "make");
   (s_ "nil");
   (s_ "panic");
   (s_ "slice0");
   (s_ "string");
   (s_ "target");
   (s_ "target0")])]
  [(s_ "fmt");
   (s_ "strconv");
   (s_ "strings")] [] [] [] [] [].

(** test_cases/general/array/of/class_ref/go/test_generate *)
Definition go_general_array_of_class_ref : go_source :=
  GoSource
  [(s_ "funcEmptyFromJSONablevalueinterface{}idstringrefstringtarget*Emptyerrors*Errors{iftarget==nil{panic""unexpected nil target""}iferrors==nil{panic""unexpected nil errors""}if!errors.Empty{panic""unexpected non-empty errors""}_ok:=value.map[string]interface{}if!ok{errors.Addreffmt.Sprintf""expected a map[string]interface{}, but got: %T""valuereturn}target.ID=idreturn}");
   (s_ "funcSomeGraphFromJSONablevalueinterface{}refstringtarget*SomeGrapherrors*Errors{iftarget==nil{panic""unexpected nil target""}iferrors==nil{panic""unexpected nil errors""}if!errors.Empty{panic""unexpected non-empty errors""}castok:=value.map[string]interface{}if!ok{errors.Addreffmt.Sprintf""expected a map[string]interface{}, but got: %T""valuereturn}emptiesRef:=ref+""/empties""varemptiesOkboolvaremptiesValueinterface{}varemptiesMapmap[string]interface{}emptiesValueemptiesOk=cast[""empties""]ifemptiesOk{emptiesMapok=emptiesValue.map[string]interface{}if!ok{errors.AddemptiesReffmt.Sprintf""expected a map[string]interface{}, but got: %T""emptiesValue}else{target.Empties=makemap[string]*Emptyforid:=rangeemptiesMap{target.Empties[id]=&Empty{}}}}if!errors.Empty{return}ifemptiesOk{foridvalue:=rangeemptiesMap{EmptyFromJSONablevalueidstrings.Join[]string{emptiesRefid}""/""target.Empties[id]errorsiferrors.Full{break}}}iferrors.Full{return}value0ok0:=cast[""array_of_class_refs""]if!ok0{errors.Addref""property is missing: array_of_class_refs""}else{cast1ok1:=value0.[]interface{}if!ok1{errors.Addstrings.Join[]string{ref""array_of_class_refs""}""/""fmt.Sprintf""expected a []interface{}, but got: %T""value0}else{target1:=make[]*Emptylencast1fori1:=rangecast1{cast2ok2:=cast1[i1].stringif!ok2{errors.Addstrings.Join[]string{ref""array_of_class_refs""strconv.Itoai1}""/""fmt.Sprintf""expected a string, but got: %T""cast1[i1]}else{target2ok2:=target.Empties[cast2]if!ok2{errors.Addstrings.Join[]string{ref""array_of_class_refs""strconv.Itoai1}""/""fmt.Sprintf""reference to an instance of class Empty not found: %s""cast1[i1]}else{target1[i1]=target2}}iferrors.Full{break}}target.ArrayOfClassRefs=target1}}iferrors.Full{return}return}")]
  [(s_ "funcEmptyToJSONableinstance*Emptytargetmap[string]interface{}{ifinstance==nil{panic""unexpected nil instance""}target=makemap[string]interface{}return}");
   (s_ "funcSomeGraphToJSONableinstance*SomeGraphtargetmap[string]interface{}errerror{ifinstance==nil{panic""unexpected nil instance""}target=makemap[string]interface{}deferfunc{iferr!=nil{target=nil}}count0:=leninstance.ArrayOfClassRefsslice0:=instance.ArrayOfClassRefstarget0:=make[]interface{}count0fori0:=0i0<count0i0++{target0[i0]=slice0[i0].ID}target[""array_of_class_refs""]=target0ifleninstance.Empties>0{targetEmpties:=makemap[string]interface{}forid:=rangeinstance.Empties{emptyInstance:=instance.Empties[id]ifid!=emptyInstance.ID{err=fmt.Errorf""expected the instance of Empty to have the ID %s according to the registry, but got: %s""idemptyInstance.IDreturn}targetEmpties[id]=EmptyToJSONableemptyInstance}target[""empties""]=targetEmpties}return}")]
  [(s_ "typeEmptystruct{IDstring}");
   (s_ "typeSomeGraphstruct{Emptiesmap[string]*EmptyArrayOfClassRefs[]*Empty}")]
  []
  [([(s_ "value");
   (s_ "id");
   (s_ "ref");
   (s_ "target");
   (s_ "errors")], [(s_ "errors");
   (s_ "fmt");
   (s_ "id");
   (s_ "nil");
   (s_ "ok");
   (s_ "panic");
   (s_ "ref");
   (s_ "string");
   (s_ "target");
   (s_ "value")]);
   ([(s_ "value");
   (s_ "ref");
   (s_ "target");
   (s_ "errors")], [(s_ "Empty");
   (s_ "EmptyFromJSONable");
   (s_ "bool");
   (s_ "cast");
   (s_ "cast1");
   (s_ "cast2");
   (s_ "emptiesMap");
   (s_ "emptiesOk");
   (s_ "emptiesRef");
   (s_ "emptiesValue");
   (s_ "errors");
   (s_ "fmt");
   (s_ "i1");
   (s_ "id");
   (s_ "len");
   (s_ "make");
   (s_ "nil");
   (s_ "ok");
   (s_ "ok0");
   (s_ "ok1");
   (s_ "ok2");
   (s_ "panic");
   (s_ "ref");
   (s_ "strconv");
   (s_ "string");
   (s_ "strings");
   (s_ "target");
   (s_ "target1");
   (s_ "target2");
   (s_ "value");
   (s_ "value0")])]
  [([(s_ "instance");
   (s_ "target")], [(s_ "instance");
   (s_ "make");
   (s_ "nil");
   (s_ "panic");
   (s_ "string");
   (s_ "target")]);
   ([(s_ "instance");
   (s_ "target");
   (s_ "err")], [(s_ "EmptyToJSONable");
   (s_ "count0");
   (s_ "emptyInstance");
   (s_ "err");
   (s_ "fmt");
   (s_ "i0");
   (s_ "id");
   (s_ "instance");
   (s_ "len");
   (s_ "make");
   (s_ "nil");
   (s_ "panic");
   (s_ "slice0");
   (s_ "string");
   (s_ "target");
   (s_ "target0");
   (s_ "targetEmpties")])]
  [(s_ "fmt");
   (s_ "strconv");
   (s_ "strings")] [(s_ "fmt")] [] [] [] [].

(** test_cases/general/array/of/date/go/test_generate *)
Definition go_general_array_of_date : go_source :=
  GoSource
  [(s_ "funcSomeGraphFromJSONablevalueinterface{}refstringtarget*SomeGrapherrors*Errors{iftarget==nil{panic""unexpected nil target""}iferrors==nil{panic""unexpected nil errors""}if!errors.Empty{panic""unexpected non-empty errors""}castok:=value.map[string]interface{}if!ok{errors.Addreffmt.Sprintf""expected a map[string]interface{}, but got: %T""valuereturn}value0ok0:=cast[""array_of_dates""]if!ok0{errors.Addref""property is missing: array_of_dates""}else{cast1ok1:=value0.[]interface{}if!ok1{errors.Addstrings.Join[]string{ref""array_of_dates""}""/""fmt.Sprintf""expected a []interface{}, but got: %T""value0}else{target1:=make[]time.Timelencast1fori1:=rangecast1{cast2ok2:=cast1[i1].stringif!ok2{errors.Addstrings.Join[]string{ref""array_of_dates""strconv.Itoai1}""/""fmt.Sprintf""expected a string, but got: %T""cast1[i1]}else{target2err2:=time.Parse""2006-01-02""cast2iferr2!=nil{errors.Addstrings.Join[]string{ref""array_of_dates""strconv.Itoai1}""/""fmt.Sprintf""expected layout 2006-01-02, got: %s""cast2}else{target1[i1]=target2}}iferrors.Full{break}}target.ArrayOfDates=target1}}iferrors.Full{return}return}")]
  [(s_ "funcSomeGraphToJSONableinstance*SomeGraphtargetmap[string]interface{}errerror{ifinstance==nil{panic""unexpected nil instance""}target=makemap[string]interface{}deferfunc{iferr!=nil{target=nil}}count0:=leninstance.ArrayOfDatesslice0:=instance.ArrayOfDatestarget0:=make[]interface{}count0fori0:=0i0<count0i0++{target0[i0]=slice0[i0].Format""2006-01-02""}target[""array_of_dates""]=target0return}")]
  [(s_ "typeSomeGraphstruct{ArrayOfDates[]time.Time}")]
  []
  [([(s_ "value");
   (s_ "ref");
   (s_ "target");
   (s_ "errors")], [(s_ "cast");
   (s_ "cast1");
   (s_ "cast2");
   (s_ "err2");
   (s_ "errors");
   (s_ "fmt");
   (s_ "i1");
   (s_ "len");
   (s_ "make");
   (s_ "nil");
   (s_ "ok");
   (s_ "ok0");
   (s_ "ok1");
   (s_ "ok2");
   (s_ "panic");
   (s_ "ref");
   (s_ "strconv");
   (s_ "string");
   (s_ "strings");
   (s_ "target");
   (s_ "target1");
   (s_ "target2");
   (s_ "time");
   (s_ "value");
   (s_ "value0")])]
  [([(s_ "instance");
   (s_ "target");
   (s_ "err")], [(s_ "count0");
   (s_ "err");
   (s_ "i0");
   (s_ "instance");
   (s_ "len");
   (s_ "make");
   (s_ "nil");
   (s_ "panic");
   (s_ "slice0");
   (s_ "string");
   (s_ "target");
   (s_ "target0")])]
  [(s_ "fmt");
   (s_ "strconv");
   (s_ "strings");
   (s_ "time")] [] [(s_ "time")] [] [] [].

(** test_cases/general/array/of/datetime/go/test_generate *)
Definition go_general_array_of_datetime : go_source :=
  GoSource
  [(s_ "funcSomeGraphFromJSONablevalueinterface{}refstringtarget*SomeGrapherrors*Errors{iftarget==nil{panic""unexpected nil target""}iferrors==nil{panic""unexpected nil errors""}if!errors.Empty{panic""unexpected non-empty errors""}castok:=value.map[string]interface{}if!ok{errors.Addreffmt.Sprintf""expected a map[string]interface{}, but got: %T""valuereturn}value0ok0:=cast[""array_of_datetimes""]if!ok0{errors.Addref""property is missing: array_of_datetimes""}else{cast1ok1:=value0.[]interface{}if!ok1{errors.Addstrings.Join[]string{ref""array_of_datetimes""}""/""fmt.Sprintf""expected a []interface{}, but got: %T""value0}else{target1:=make[]time.Timelencast1fori1:=rangecast1{cast2ok2:=cast1[i1].stringif!ok2{errors.Addstrings.Join[]string{ref""array_of_datetimes""strconv.Itoai1}""/""fmt.Sprintf""expected a string, but got: %T""cast1[i1]}else{target2err2:=time.Parse""2006-01-02T15:04:05Z""cast2iferr2!=nil{errors.Addstrings.Join[]string{ref""array_of_datetimes""strconv.Itoai1}""/""fmt.Sprintf""expected layout 2006-01-02T15:04:05Z, got: %s""cast2}else{target1[i1]=target2}}iferrors.Full{break}}target.ArrayOfDatetimes=target1}}iferrors.Full{return}return}")]
  [(s_ "funcSomeGraphToJSONableinstance*SomeGraphtargetmap[string]interface{}errerror{ifinstance==nil{panic""unexpected nil instance""}target=makemap[string]interface{}deferfunc{iferr!=nil{target=nil}}count0:=leninstance.ArrayOfDatetimesslice0:=instance.ArrayOfDatetimestarget0:=make[]interface{}count0fori0:=0i0<count0i0++{target0[i0]=slice0[i0].Format""2006-01-02T15:04:05Z""}target[""array_of_datetimes""]=target0return}")]
  [(s_ "typeSomeGraphstruct{ArrayOfDatetimes[]time.Time}")]
  []
  [([(s_ "value");
   (s_ "ref");
   (s_ "target");
   (s_ "errors")], [(s_ "cast");
   (s_ "cast1");
   (s_ "cast2");
   (s_ "err2");
   (s_ "errors");
   (s_ "fmt");
   (s_ "i1");
   (s_ "len");
   (s_ "make");
   (s_ "nil");
   (s_ "ok");
   (s_ "ok0");
   (s_ "ok1");
   (s_ "ok2");
   (s_ "panic");
   (s_ "ref");
   (s_ "strconv");
   (s_ "string");
   (s_ "strings");
   (s_ "target");
   (s_ "target1");
   (s_ "target2");
   (s_ "time");
   (s_ "value");
   (s_ "value0")])]
  [([(s_ "instance");
   (s_ "target");
   (s_ "err")], [(s_ "count0");
   (s_ "err");
   (s_ "i0");
   (s_ "instance");
   (s_ "len");
   (s_ "make");
   (s_ "nil");
   (s_ "panic");
   (s_ "slice0");
   (s_ "string");
   (s_ "target");
   (s_ "target0")])]
  [(s_ "fmt");
   (s_ "strconv");
   (s_ "strings");
   (s_ "time")] [] [(s_ "time")] [] [] [].

(** test_cases/general/array/of/duration/go/test_generate *)
Definition go_general_array_of_duration : go_source :=
  GoSource
  [(s_ "funcSomeGraphFromJSONablevalueinterface{}refstringtarget*SomeGrapherrors*Errors{iftarget==nil{panic""unexpected nil target""}iferrors==nil{panic""unexpected nil errors""}if!errors.Empty{panic""unexpected non-empty errors""}castok:=value.map[string]interface{}if!ok{errors.Addreffmt.Sprintf""expected a map[string]interface{}, but got: %T""valuereturn}value0ok0:=cast[""array_of_durations""]if!ok0{errors.Addref""property is missing: array_of_durations""}else{cast1ok1:=value0.[]interface{}if!ok1{errors.Addstrings.Join[]string{ref""array_of_durations""}""/""fmt.Sprintf""expected a []interface{}, but got: %T""value0}else{target1:=make[]time.Durationlencast1fori1:=rangecast1{cast2ok2:=cast1[i1].stringif!ok2{errors.Addstrings.Join[]string{ref""array_of_durations""strconv.Itoai1}""/""fmt.Sprintf""expected a string, but got: %T""cast1[i1]}else{target2err2:=durationFromStringcast2iferr2!=nil{errors.Addstrings.Join[]string{ref""array_of_durations""strconv.Itoai1}""/""fmt.Sprintf""failed to parse duration from %#v: %s""cast2err2.Error}else{target1[i1]=target2}}iferrors.Full{break}}target.ArrayOfDurations=target1}}iferrors.Full{return}return}")]
  [(s_ "funcSomeGraphToJSONableinstance*SomeGraphtargetmap[string]interface{}errerror{ifinstance==nil{panic""unexpected nil instance""}target=makemap[string]interface{}deferfunc{iferr!=nil{target=nil}}count0:=leninstance.ArrayOfDurationsslice0:=instance.ArrayOfDurationstarget0:=make[]interface{}count0fori0:=0i0<count0i0++{target0[i0]=durationToStringslice0[i0]}target[""array_of_durations""]=target0return}")]
  [(s_ "typeSomeGraphstruct{ArrayOfDurations[]time.Duration}")]
  []
  [([(s_ "value");
   (s_ "ref");
   (s_ "target");
   (s_ "errors")], [(s_ "cast");
   (s_ "cast1");
   (s_ "cast2");
   (s_ "durationFromString");
   (s_ "err2");
   (s_ "errors");
   (s_ "fmt");
   (s_ "i1");
   (s_ "len");
   (s_ "make");
   (s_ "nil");
   (s_ "ok");
   (s_ "ok0");
   (s_ "ok1");
   (s_ "ok2");
   (s_ "panic");
   (s_ "ref");
   (s_ "strconv");
   (s_ "string");
   (s_ "strings");
   (s_ "target");
   (s_ "target1");
   (s_ "target2");
   (s_ "time");
   (s_ "value");
   (s_ "value0")])]
  [([(s_ "instance");
   (s_ "target");
   (s_ "err")], [(s_ "count0");
   (s_ "durationToString");
   (s_ "err");
   (s_ "i0");
   (s_ "instance");
   (s_ "len");
   (s_ "make");
   (s_ "nil");
   (s_ "panic");
   (s_ "slice0");
   (s_ "string");
   (s_ "target");
   (s_ "target0")])]
  [(s_ "fmt");
   (s_ "math");
   (s_ "regexp");
   (s_ "strconv");
   (s_ "strings");
   (s_ "time")] [(s_ "fmt");
   (s_ "strings");
   (s_ "time")] [(s_ "time")] [(s_ "fmt")] [(s_ "fmt");
   (s_ "time")] [].

(** test_cases/general/array/of/embed/go/test_generate *)
Definition go_general_array_of_embed : go_source :=
  GoSource
  [(s_ "funcEmptyFromJSONablevalueinterface{}refstringtarget*Emptyerrors*Errors{iftarget==nil{panic""unexpected nil target""}iferrors==nil{panic""unexpected nil errors""}if!errors.Empty{panic""unexpected non-empty errors""}_ok:=value.map[string]interface{}if!ok{errors.Addreffmt.Sprintf""expected a map[string]interface{}, but got: %T""valuereturn}return}");
   (s_ "funcSomeGraphFromJSONablevalueinterface{}refstringtarget*SomeGrapherrors*Errors{iftarget==nil{panic""unexpected nil target""}iferrors==nil{panic""unexpected nil errors""}if!errors.Empty{panic""unexpected non-empty errors""}castok:=value.map[string]interface{}if!ok{errors.Addreffmt.Sprintf""expected a map[string]interface{}, but got: %T""valuereturn}value0ok0:=cast[""array_of_embeds""]if!ok0{errors.Addref""property is missing: array_of_embeds""}else{cast1ok1:=value0.[]interface{}if!ok1{errors.Addstrings.Join[]string{ref""array_of_embeds""}""/""fmt.Sprintf""expected a []interface{}, but got: %T""value0}else{target1:=make[]Emptylencast1fori1:=rangecast1{EmptyFromJSONablecast1[i1]strings.Join[]string{ref""array_of_embeds""strconv.Itoai1}""/""&target1[i1]errorsiferrors.Full{break}}target.ArrayOfEmbeds=target1}}iferrors.Full{return}return}")]
  [(s_ "funcEmptyToJSONableinstance*Emptytargetmap[string]interface{}{ifinstance==nil{panic""unexpected nil instance""}target=makemap[string]interface{}return}");
   (s_ "funcSomeGraphToJSONableinstance*SomeGraphtargetmap[string]interface{}errerror{ifinstance==nil{panic""unexpected nil instance""}target=makemap[string]interface{}deferfunc{iferr!=nil{target=nil}}count0:=leninstance.ArrayOfEmbedsslice0:=instance.ArrayOfEmbedstarget0:=make[]interface{}count0fori0:=0i0<count0i0++{target0[i0]=EmptyToJSONable&slice0[i0]}target[""array_of_embeds""]=target0return}")]
  [(s_ "typeEmptystruct{}");
   (s_ "typeSomeGraphstruct{ArrayOfEmbeds[]Empty}")]
  []
  [([(s_ "value");
   (s_ "ref");
   (s_ "target");
   (s_ "errors")], [(s_ "errors");
   (s_ "fmt");
   (s_ "nil");
   (s_ "ok");
   (s_ "panic");
   (s_ "ref");
   (s_ "string");
   (s_ "target");
   (s_ "value")]);
   ([(s_ "value");
   (s_ "ref");
   (s_ "target");
   (s_ "errors")], [(s_ "Empty");
   (s_ "EmptyFromJSONable");
   (s_ "cast");
   (s_ "cast1");
   (s_ "errors");
   (s_ "fmt");
   (s_ "i1");
   (s_ "len");
   (s_ "make");
   (s_ "nil");
   (s_ "ok");
   (s_ "ok0");
   (s_ "ok1");
   (s_ "panic");
   (s_ "ref");
   (s_ "strconv");
   (s_ "string");
   (s_ "strings");
   (s_ "target");
   (s_ "target1");
   (s_ "value");
   (s_ "value0")])]
  [([(s_ "instance");
   (s_ "target")], [(s_ "instance");
   (s_ "make");
   (s_ "nil");
   (s_ "panic");
   (s_ "string");
   (s_ "target")]);
   ([(s_ "instance");
   (s_ "target");
   (s_ "err")], [(s_ "EmptyToJSONable");
   (s_ "count0");
   (s_ "err");
   (s_ "i0");
   (s_ "instance");
   (s_ "len");
   (s_ "make");
   (s_ "nil");
   (s_ "panic");
   (s_ "slice0");
   (s_ "string");
   (s_ "target");
   (s_ "target0")])]
  [(s_ "fmt");
   (s_ "strconv");
   (s_ "strings")] [] [] [] [] [].

(** test_cases/general/array/of/float/go/test_generate *)
Definition go_general_array_of_float : go_source :=
  GoSource
  [(s_ "funcSomeGraphFromJSONablevalueinterface{}refstringtarget*SomeGrapherrors*Errors{iftarget==nil{panic""unexpected nil target""}iferrors==nil{panic""unexpected nil errors""}if!errors.Empty{panic""unexpected non-empty errors""}castok:=value.map[string]interface{}if!ok{errors.Addreffmt.Sprintf""expected a map[string]interface{}, but got: %T""valuereturn}value0ok0:=cast[""array_of_floats""]if!ok0{errors.Addref""property is missing: array_of_floats""}else{cast1ok1:=value0.[]interface{}if!ok1{errors.Addstrings.Join[]string{ref""array_of_floats""}""/""fmt.Sprintf""expected a []interface{}, but got: %T""value0}else{target1:=make[]float64lencast1fori1:=rangecast1{cast2ok2:=cast1[i1].float64if!ok2{errors.Addstrings.Join[]string{ref""array_of_floats""strconv.Itoai1}""/""fmt.Sprintf""expected a float64, but got: %T""cast1[i1]}else{target1[i1]=cast2}iferrors.Full{break}}target.ArrayOfFloats=target1}}iferrors.Full{return}return}")]
  [(s_ "funcSomeGraphToJSONableinstance*SomeGraphtargetmap[string]interface{}errerror{ifinstance==nil{panic""unexpected nil instance""}target=makemap[string]interface{}deferfunc{iferr!=nil{target=nil}}count0:=leninstance.ArrayOfFloatsslice0:=instance.ArrayOfFloatstarget0:=make[]interface{}count0fori0:=0i0<count0i0++{target0[i0]=slice0[i0]}target[""array_of_floats""]=target0return}")]
  [(s_ "typeSomeGraphstruct{ArrayOfFloats[]float64}")]
  []
  [([(s_ "value");
   (s_ "ref");
   (s_ "target");
   (s_ "errors")], [(s_ "cast");
   (s_ "cast1");
   (s_ "cast2");
   (s_ "errors");
   (s_ "float64");
   (s_ "fmt");
   (s_ "i1");
   (s_ "len");
   (s_ "make");
   (s_ "nil");
   (s_ "ok");
   (s_ "ok0");
   (s_ "ok1");
   (s_ "ok2");
   (s_ "panic");
   (s_ "ref");
   (s_ "strconv");
   (s_ "string");
   (s_ "strings");
   (s_ "target");
   (s_ "target1");
   (s_ "value");
   (s_ "value0")])]
  [([(s_ "instance");
   (s_ "target");
   (s_ "err")], [(s_ "count0");
   (s_ "err");
   (s_ "i0");
   (s_ "instance");
   (s_ "len");
   (s_ "make");
   (s_ "nil");
   (s_ "panic");
   (s_ "slice0");
   (s_ "string");
   (s_ "target");
   (s_ "target0")])]
  [(s_ "fmt");
   (s_ "strconv");
   (s_ "strings")] [] [] [] [] [].

(** test_cases/general/array/of/integer/go/test_generate *)
Definition go_general_array_of_integer : go_source :=
  GoSource
  [(s_ "funcSomeGraphFromJSONablevalueinterface{}refstringtarget*SomeGrapherrors*Errors{iftarget==nil{panic""unexpected nil target""}iferrors==nil{panic""unexpected nil errors""}if!errors.Empty{panic""unexpected non-empty errors""}castok:=value.map[string]interface{}if!ok{errors.Addreffmt.Sprintf""expected a map[string]interface{}, but got: %T""valuereturn}value0ok0:=cast[""array_of_integers""]if!ok0{errors.Addref""property is missing: array_of_integers""}else{cast1ok1:=value0.[]interface{}if!ok1{errors.Addstrings.Join[]string{ref""array_of_integers""}""/""fmt.Sprintf""expected a []interface{}, but got: %T""value0}else{target1:=make[]int64lencast1fori1:=rangecast1{fcast2ok2:=cast1[i1].float64if!ok2{errors.Addstrings.Join[]string{ref""array_of_integers""strconv.Itoai1}""/""fmt.Sprintf""expected a float64, but got: %T""cast1[i1]}else{iffcast2!=math.Truncfcast2{errors.Addstrings.Join[]string{ref""array_of_integers""strconv.Itoai1}""/""fmt.Sprintf""expected a whole number, but got: %f""fcast2}else{iffcast2>=9223372036854775808||fcast2<-9223372036854775808{errors.Addstrings.Join[]string{ref""array_of_integers""strconv.Itoai1}""/""fmt.Sprintf""expected the value to fit into int64, but got an overflow: %f""fcast2}else{target1[i1]=int64fcast2}}}iferrors.Full{break}}target.ArrayOfIntegers=target1}}iferrors.Full{return}return}")]
  [(s_ "funcSomeGraphToJSONableinstance*SomeGraphtargetmap[string]interface{}errerror{ifinstance==nil{panic""unexpected nil instance""}target=makemap[string]interface{}deferfunc{iferr!=nil{target=nil}}count0:=leninstance.ArrayOfIntegersslice0:=instance.ArrayOfIntegerstarget0:=make[]interface{}count0fori0:=0i0<count0i0++{target0[i0]=slice0[i0]}target[""array_of_integers""]=target0return}")]
  [(s_ "typeSomeGraphstruct{ArrayOfIntegers[]int64}")]
  []
  [([(s_ "value");
   (s_ "ref");
   (s_ "target");
   (s_ "errors")], [(s_ "cast");
   (s_ "cast1");
   (s_ "errors");
   (s_ "fcast2");
   (s_ "float64");
   (s_ "fmt");
   (s_ "i1");
   (s_ "int64");
   (s_ "len");
   (s_ "make");
   (s_ "math");
   (s_ "nil");
   (s_ "ok");
   (s_ "ok0");
   (s_ "ok1");
   (s_ "ok2");
   (s_ "panic");
   (s_ "ref");
   (s_ "strconv");
   (s_ "string");
   (s_ "strings");
   (s_ "target");
   (s_ "target1");
   (s_ "value");
   (s_ "value0")])]
  [([(s_ "instance");
   (s_ "target");
   (s_ "err")], [(s_ "count0");
   (s_ "err");
   (s_ "i0");
   (s_ "instance");
   (s_ "len");
   (s_ "make");
   (s_ "nil");
   (s_ "panic");
   (s_ "slice0");
   (s_ "string");
   (s_ "target");
   (s_ "target0")])]
  [(s_ "fmt");
   (s_ "math");
   (s_ "strconv");
   (s_ "strings")] [] [] [] [] [].

(** test_cases/general/array/of/map/go/test_generate *)
Definition go_general_array_of_map : go_source :=
  GoSource
  [(s_ "funcSomeGraphFromJSONablevalueinterface{}refstringtarget*SomeGrapherrors*Errors{iftarget==nil{panic""unexpected nil target""}iferrors==nil{panic""unexpected nil errors""}if!errors.Empty{panic""unexpected non-empty errors""}castok:=value.map[string]interface{}if!ok{errors.Addreffmt.Sprintf""expected a map[string]interface{}, but got: %T""valuereturn}value0ok0:=cast[""array_of_maps""]if!ok0{errors.Addref""property is missing: array_of_maps""}else{cast1ok1:=value0.[]interface{}if!ok1{errors.Addstrings.Join[]string{ref""array_of_maps""}""/""fmt.Sprintf""expected a []interface{}, but got: %T""value0}else{target1:=make[]map[string]boollencast1fori1:=rangecast1{cast2ok2:=cast1[i1].map[string]interface{}if!ok2{errors.Addstrings.Join[]string{ref""array_of_maps""strconv.Itoai1}""/""fmt.Sprintf""expected a map[string]interface{}, but got: %T""cast1[i1]}else{target2:=makemap[string]boolfork2:=rangecast2{cast3ok3:=cast2[k2].boolif!ok3{errors.Addstrings.Join[]string{ref""array_of_maps""strconv.Itoai1k2}""/""fmt.Sprintf""expected a bool, but got: %T""cast2[k2]}else{target2[k2]=cast3}iferrors.Full{break}}target1[i1]=target2}iferrors.Full{break}}target.ArrayOfMaps=target1}}iferrors.Full{return}return}")]
  [(s_ "funcSomeGraphToJSONableinstance*SomeGraphtargetmap[string]interface{}errerror{ifinstance==nil{panic""unexpected nil instance""}target=makemap[string]interface{}deferfunc{iferr!=nil{target=nil}}count0:=leninstance.ArrayOfMapsslice0:=instance.ArrayOfMapstarget0:=make[]interface{}count0fori0:=0i0<count0i0++{target1:=makemap[string]interface{}map1:=slice0[i0]fork1v1:=rangemap1{target1[k1]=v1}target0[i0]=target1}target[""array_of_maps""]=target0return}")]
  [(s_ "typeSomeGraphstruct{ArrayOfMaps[]map[string]bool}")]
  []
  [([(s_ "value");
   (s_ "ref");
   (s_ "target");
   (s_ "errors")], [(s_ "bool");
   (s_ "cast");
   (s_ "cast1");
   (s_ "cast2");
   (s_ "cast3");
   (s_ "errors");
   (s_ "fmt");
   (s_ "i1");
   (s_ "k2");
   (s_ "len");
   (s_ "make");
   (s_ "nil");
   (s_ "ok");
   (s_ "ok0");
   (s_ "ok1");
   (s_ "ok2");
   (s_ "ok3");
   (s_ "panic");
   (s_ "ref");
   (s_ "strconv");
   (s_ "string");
   (s_ "strings");
   (s_ "target");
   (s_ "target1");
   (s_ "target2");
   (s_ "value");
   (s_ "value0")])]
  [([(s_ "instance");
   (s_ "target");
   (s_ "err")], [(s_ "count0");
   (s_ "err");
   (s_ "i0");
   (s_ "instance");
   (s_ "k1");
   (s_ "len");
   (s_ "make");
   (s_ "map1");
   (s_ "nil");
   (s_ "panic");
   (s_ "slice0");
   (s_ "string");
   (s_ "target");
   (s_ "target0");
   (s_ "target1");
   (s_ "v1")])]
  [(s_ "fmt");
   (s_ "strconv");
   (s_ "strings")] [] [] [] [] [].

(** test_cases/general/array/of/path/go/test_generate *)
Definition go_general_array_of_path : go_source :=
  GoSource
  [(s_ "funcSomeGraphFromJSONablevalueinterface{}refstringtarget*SomeGrapherrors*Errors{iftarget==nil{panic""unexpected nil target""}iferrors==nil{panic""unexpected nil errors""}if!errors.Empty{panic""unexpected non-empty errors""}castok:=value.map[string]interface{}if!ok{errors.Addreffmt.Sprintf""expected a map[string]interface{}, but got: %T""valuereturn}value0ok0:=cast[""array_of_paths""]if!ok0{errors.Addref""property is missing: array_of_paths""}else{cast1ok1:=value0.[]interface{}if!ok1{errors.Addstrings.Join[]string{ref""array_of_paths""}""/""fmt.Sprintf""expected a []interface{}, but got: %T""value0}else{target1:=make[]stringlencast1fori1:=rangecast1{cast2ok2:=cast1[i1].stringif!ok2{errors.Addstrings.Join[]string{ref""array_of_paths""strconv.Itoai1}""/""fmt.Sprintf""expected a string, but got: %T""cast1[i1]}else{target1[i1]=cast2}iferrors.Full{break}}target.ArrayOfPaths=target1}}iferrors.Full{return}return}")]
  [(s_ "funcSomeGraphToJSONableinstance*SomeGraphtargetmap[string]interface{}errerror{ifinstance==nil{panic""unexpected nil instance""}target=makemap[string]interface{}deferfunc{iferr!=nil{target=nil}}count0:=leninstance.ArrayOfPathsslice0:=instance.ArrayOfPathstarget0:=make[]interface{}count0fori0:=0i0<count0i0++{target0[i0]=slice0[i0]}target[""array_of_paths""]=target0return}")]
  [(s_ "typeSomeGraphstruct{ArrayOfPaths[]string}")]
  []
  [([(s_ "value");
   (s_ "ref");
   (s_ "target");
   (s_ "errors")], [(s_ "cast");
   (s_ "cast1");
   (s_ "cast2");
   (s_ "errors");
   (s_ "fmt");
   (s_ "i1");
   (s_ "len");
   (s_ "make");
   (s_ "nil");
   (s_ "ok");
   (s_ "ok0");
   (s_ "ok1");
   (s_ "ok2");
   (s_ "panic");
   (s_ "ref");
   (s_ "strconv");
   (s_ "string");
   (s_ "strings");
   (s_ "target");
   (s_ "target1");
   (s_ "value");
   (s_ "value0")])]
  [([(s_ "instance");
   (s_ "target");
   (s_ "err")], [(s_ "count0");
   (s_ "err");
   (s_ "i0");
   (s_ "instance");
   (s_ "len");
   (s_ "make");
   (s_ "nil");
   (s_ "panic");
   (s_ "slice0");
   (s_ "string");
   (s_ "target");
   (s_ "target0")])]
  [(s_ "fmt");
   (s_ "strconv");
   (s_ "strings")] [] [] [] [] [].

(** test_cases/general/array/of/string/go/test_generate *)
Definition go_general_array_of_string : go_source :=
  GoSource
  [(s_ "funcSomeGraphFromJSONablevalueinterface{}refstringtarget*SomeGrapherrors*Errors{iftarget==nil{panic""unexpected nil target""}iferrors==nil{panic""unexpected nil errors""}if!errors.Empty{panic""unexpected non-empty errors""}castok:=value.map[string]interface{}if!ok{errors.Addreffmt.Sprintf""expected a map[string]interface{}, but got: %T""valuereturn}value0ok0:=cast[""array_of_strings""]if!ok0{errors.Addref""property is missing: array_of_strings""}else{cast1ok1:=value0.[]interface{}if!ok1{errors.Addstrings.Join[]string{ref""array_of_strings""}""/""fmt.Sprintf""expected a []interface{}, but got: %T""value0}else{target1:=make[]stringlencast1fori1:=rangecast1{cast2ok2:=cast1[i1].stringif!ok2{errors.Addstrings.Join[]string{ref""array_of_strings""strconv.Itoai1}""/""fmt.Sprintf""expected a string, but got: %T""cast1[i1]}else{target1[i1]=cast2}iferrors.Full{break}}target.ArrayOfStrings=target1}}iferrors.Full{return}return}")]
  [(s_ "funcSomeGraphToJSONableinstance*SomeGraphtargetmap[string]interface{}errerror{ifinstance==nil{panic""unexpected nil instance""}target=makemap[string]interface{}deferfunc{iferr!=nil{target=nil}}count0:=leninstance.ArrayOfStringsslice0:=instance.ArrayOfStringstarget0:=make[]interface{}count0fori0:=0i0<count0i0++{target0[i0]=slice0[i0]}target[""array_of_strings""]=target0return}")]
  [(s_ "typeSomeGraphstruct{ArrayOfStrings[]string}")]
  []
  [([(s_ "value");
   (s_ "ref");
   (s_ "target");
   (s_ "errors")], [(s_ "cast");
   (s_ "cast1");
   (s_ "cast2");
   (s_ "errors");
   (s_ "fmt");
   (s_ "i1");
   (s_ "len");
   (s_ "make");
   (s_ "nil");
   (s_ "ok");
   (s_ "ok0");
   (s_ "ok1");
   (s_ "ok2");
   (s_ "panic");
   (s_ "ref");
   (s_ "strconv");
   (s_ "string");
   (s_ "strings");
   (s_ "target");
   (s_ "target1");
   (s_ "value");
   (s_ "value0")])]
  [([(s_ "instance");
   (s_ "target");
   (s_ "err")], [(s_ "count0");
   (s_ "err");
   (s_ "i0");
   (s_ "instance");
   (s_ "len");
   (s_ "make");
   (s_ "nil");
   (s_ "panic");
   (s_ "slice0");
   (s_ "string");
   (s_ "target");
   (s_ "target0")])]
  [(s_ "fmt");
   (s_ "strconv");
   (s_ "strings")] [] [] [] [] [].

(** test_cases/general/array/of/time/go/test_generate *)
Definition go_general_array_of_time : go_source :=
  GoSource
  [(s_ "funcSomeGraphFromJSONablevalueinterface{}refstringtarget*SomeGrapherrors*Errors{iftarget==nil{panic""unexpected nil target""}iferrors==nil{panic""unexpected nil errors""}if!errors.Empty{panic""unexpected non-empty errors""}castok:=value.map[string]interface{}if!ok{errors.Addreffmt.Sprintf""expected a map[string]interface{}, but got: %T""valuereturn}value0ok0:=cast[""array_of_times""]if!ok0{errors.Addref""property is missing: array_of_times""}else{cast1ok1:=value0.[]interface{}if!ok1{errors.Addstrings.Join[]string{ref""array_of_times""}""/""fmt.Sprintf""expected a []interface{}, but got: %T""value0}else{target1:=make[]time.Timelencast1fori1:=rangecast1{cast2ok2:=cast1[i1].stringif!ok2{errors.Addstrings.Join[]string{ref""array_of_times""strconv.Itoai1}""/""fmt.Sprintf""expected a string, but got: %T""cast1[i1]}else{target2err2:=time.Parse""15:04:05""cast2iferr2!=nil{errors.Addstrings.Join[]string{ref""array_of_times""strconv.Itoai1}""/""fmt.Sprintf""expected layout 15:04:05, got: %s""cast2}else{target1[i1]=target2}}iferrors.Full{break}}target.ArrayOfTimes=target1}}iferrors.Full{return}return}")]
  [(s_ "funcSomeGraphToJSONableinstance*SomeGraphtargetmap[string]interface{}errerror{ifinstance==nil{panic""unexpected nil instance""}target=makemap[string]interface{}deferfunc{iferr!=nil{target=nil}}count0:=leninstance.ArrayOfTimesslice0:=instance.ArrayOfTimestarget0:=make[]interface{}count0fori0:=0i0<count0i0++{target0[i0]=slice0[i0].Format""15:04:05""}target[""array_of_times""]=target0return}")]
  [(s_ "typeSomeGraphstruct{ArrayOfTimes[]time.Time}")]
  []
  [([(s_ "value");
   (s_ "ref");
   (s_ "target");
   (s_ "errors")], [(s_ "cast");
   (s_ "cast1");
   (s_ "cast2");
   (s_ "err2");
   (s_ "errors");
   (s_ "fmt");
   (s_ "i1");
   (s_ "len");
   (s_ "make");
   (s_ "nil");
   (s_ "ok");
   (s_ "ok0");
   (s_ "ok1");
   (s_ "ok2");
   (s_ "panic");
   (s_ "ref");
   (s_ "strconv");
   (s_ "string");
   (s_ "strings");
   (s_ "target");
   (s_ "target1");
   (s_ "target2");
   (s_ "time");
   (s_ "value");
   (s_ "value0")])]
  [([(s_ "instance");
   (s_ "target");
   (s_ "err")], [(s_ "count0");
   (s_ "err");
   (s_ "i0");
   (s_ "instance");
   (s_ "len");
   (s_ "make");
   (s_ "nil");
   (s_ "panic");
   (s_ "slice0");
   (s_ "string");
   (s_ "target");
   (s_ "target0")])]
  [(s_ "fmt");
   (s_ "strconv");
   (s_ "strings");
   (s_ "time")] [] [(s_ "time")] [] [] [].

(** test_cases/general/array/of/time_zone/go/test_generate *)
Definition go_general_array_of_time_zone : go_source :=
  GoSource
  [(s_ "funcSomeGraphFromJSONablevalueinterface{}refstringtarget*SomeGrapherrors*Errors{iftarget==nil{panic""unexpected nil target""}iferrors==nil{panic""unexpected nil errors""}if!errors.Empty{panic""unexpected non-empty errors""}castok:=value.map[string]interface{}if!ok{errors.Addreffmt.Sprintf""expected a map[string]interface{}, but got: %T""valuereturn}value0ok0:=cast[""array_of_time_zones""]if!ok0{errors.Addref""property is missing: array_of_time_zones""}else{cast1ok1:=value0.[]interface{}if!ok1{errors.Addstrings.Join[]string{ref""array_of_time_zones""}""/""fmt.Sprintf""expected a []interface{}, but got: %T""value0}else{target1:=make[]*time.Locationlencast1fori1:=rangecast1{cast2ok2:=cast1[i1].stringif!ok2{errors.Addstrings.Join[]string{ref""array_of_time_zones""strconv.Itoai1}""/""fmt.Sprintf""expected a string, but got: %T""cast1[i1]}else{target2err2:=time.LoadLocationcast2iferr2!=nil{errors.Addstrings.Join[]string{ref""array_of_time_zones""strconv.Itoai1}""/""fmt.Sprintf""failed to load location from %#v: %s""cast2err2.Error}else{target1[i1]=target2}}iferrors.Full{break}}target.ArrayOfTimeZones=target1}}iferrors.Full{return}return}")]
  [(s_ "funcSomeGraphToJSONableinstance*SomeGraphtargetmap[string]interface{}errerror{ifinstance==nil{panic""unexpected nil instance""}target=makemap[string]interface{}deferfunc{iferr!=nil{target=nil}}count0:=leninstance.ArrayOfTimeZonesslice0:=instance.ArrayOfTimeZonestarget0:=make[]interface{}count0fori0:=0i0<count0i0++{target0[i0]=slice0[i0].String}target[""array_of_time_zones""]=target0return}")]
  [(s_ "typeSomeGraphstruct{ArrayOfTimeZones[]*time.Location}")]
  []
  [([(s_ "value");
   (s_ "ref");
   (s_ "target");
   (s_ "errors")], [(s_ "cast");
   (s_ "cast1");
   (s_ "cast2");
   (s_ "err2");
   (s_ "errors");
   (s_ "fmt");
   (s_ "i1");
   (s_ "len");
   (s_ "make");
   (s_ "nil");
   (s_ "ok");
   (s_ "ok0");
   (s_ "ok1");
   (s_ "ok2");
   (s_ "panic");
   (s_ "ref");
   (s_ "strconv");
   (s_ "string");
   (s_ "strings");
   (s_ "target");
   (s_ "target1");
   (s_ "target2");
   (s_ "time");
   (s_ "value");
   (s_ "value0")])]
  [([(s_ "instance");
   (s_ "target");
   (s_ "err")], [(s_ "count0");
   (s_ "err");
   (s_ "i0");
   (s_ "instance");
   (s_ "len");
   (s_ "make");
   (s_ "nil");
   (s_ "panic");
   (s_ "slice0");
   (s_ "string");
   (s_ "target");
   (s_ "target0")])]
  [(s_ "fmt");
   (s_ "strconv");
   (s_ "strings");
   (s_ "time")] [] [(s_ "time")] [] [] [].

(** test_cases/general/class/go/test_generate *)
Definition go_general_class : go_source :=
  GoSource
  [(s_ "funcEmptyFromJSONablevalueinterface{}idstringrefstringtarget*Emptyerrors*Errors{iftarget==nil{panic""unexpected nil target""}iferrors==nil{panic""unexpected nil errors""}if!errors.Empty{panic""unexpected non-empty errors""}_ok:=value.map[string]interface{}if!ok{errors.Addreffmt.Sprintf""expected a map[string]interface{}, but got: %T""valuereturn}target.ID=idreturn}");
   (s_ "funcWithReferenceFromJSONablevalueinterface{}idstringemptiesRegistrymap[string]*Emptyrefstringtarget*WithReferenceerrors*Errors{iftarget==nil{panic""unexpected nil target""}iferrors==nil{panic""unexpected nil errors""}if!errors.Empty{panic""unexpected non-empty errors""}castok:=value.map[string]interface{}if!ok{errors.Addreffmt.Sprintf""expected a map[string]interface{}, but got: %T""valuereturn}target.ID=idvalue0ok0:=cast[""reference_to_an_empty""]if!ok0{errors.Addref""property is missing: reference_to_an_empty""}else{cast1ok1:=value0.stringif!ok1{errors.Addstrings.Join[]string{ref""reference_to_an_empty""}""/""fmt.Sprintf""expected a string, but got: %T""value0}else{target1ok1:=emptiesRegistry[cast1]if!ok1{errors.Addstrings.Join[]string{ref""reference_to_an_empty""}""/""fmt.Sprintf""reference to an instance of class Empty not found: %s""value0}else{target.ReferenceToAnEmpty=target1}}}iferrors.Full{return}value2ok2:=cast[""array_of_empties""]if!ok2{errors.Addref""property is missing: array_of_empties""}else{cast3ok3:=value2.[]interface{}if!ok3{errors.Addstrings.Join[]string{ref""array_of_empties""}""/""fmt.Sprintf""expected a []interface{}, but got: %T""value2}else{target3:=make[]*Emptylencast3fori3:=rangecast3{cast4ok4:=cast3[i3].stringif!ok4{errors.Addstrings.Join[]string{ref""array_of_empties""strconv.Itoai3}""/""fmt.Sprintf""expected a string, but got: %T""cast3[i3]}else{target4ok4:=emptiesRegistry[cast4]if!ok4{errors.Addstrings.Join[]string{ref""array_of_empties""strconv.Itoai3}""/""fmt.Sprintf""reference to an instance of class Empty not found: %s""cast3[i3]}else{target3[i3]=target4}}iferrors.Full{break}}target.ArrayOfEmpties=target3}}iferrors.Full{return}value5ok5:=cast[""map_of_empties""]if!ok5{errors.Addref""property is missing: map_of_empties""}else{cast6ok6:=value5.map[string]interface{}if!ok6{errors.Addstrings.Join[]string{ref""map_of_empties""}""/""fmt.Sprintf""expected a map[string]interface{}, but got: %T""value5}else{target6:=makemap[string]*Emptyfork6:=rangecast6{cast7ok7:=cast6[k6].stringif!ok7{errors.Addstrings.Join[]string{ref""map_of_empties""k6}""/""fmt.Sprintf""expected a string, but got: %T""cast6[k6]}else{target7ok7:=emptiesRegistry[cast7]if!ok7{errors.Addstrings.Join[]string{ref""map_of_empties""k6}""/""fmt.Sprintf""reference to an instance of class Empty not found: %s""cast6[k6]}else{target6[k6]=target7}}iferrors.Full{break}}target.MapOfEmpties=target6}}iferrors.Full{return}return}");
   (s_ "funcSomeGraphFromJSONablevalueinterface{}refstringtarget*SomeGrapherrors*Errors{iftarget==nil{panic""unexpected nil target""}iferrors==nil{panic""unexpected nil errors""}if!errors.Empty{panic""unexpected non-empty errors""}castok:=value.map[string]interface{}if!ok{errors.Addreffmt.Sprintf""expected a map[string]interface{}, but got: %T""valuereturn}emptiesRef:=ref+""/empties""varemptiesOkboolvaremptiesValueinterface{}varemptiesMapmap[string]interface{}emptiesValueemptiesOk=cast[""empties""]ifemptiesOk{emptiesMapok=emptiesValue.map[string]interface{}if!ok{errors.AddemptiesReffmt.Sprintf""expected a map[string]interface{}, but got: %T""emptiesValue}else{target.Empties=makemap[string]*Emptyforid:=rangeemptiesMap{if!pattern0.MatchStringid{errors.AddemptiesReffmt.Sprintf""expected ID to match ^[a-zA-Z_\-][a-zA-Z_0-9\-]*$, but got: %s""id}else{target.Empties[id]=&Empty{}}}}}withReferencesRef:=ref+""/with_references""varwithReferencesOkboolvarwithReferencesValueinterface{}varwithReferencesMapmap[string]interface{}withReferencesValuewithReferencesOk=cast[""with_references""]ifwithReferencesOk{withReferencesMapok=withReferencesValue.map[string]interface{}if!ok{errors.AddwithReferencesReffmt.Sprintf""expected a map[string]interface{}, but got: %T""withReferencesValue}else{target.WithReferences=makemap[string]*WithReferenceforid:=rangewithReferencesMap{target.WithReferences[id]=&WithReference{}}}}if!errors.Empty{return}ifemptiesOk{foridvalue:=rangeemptiesMap{EmptyFromJSONablevalueidstrings.Join[]string{emptiesRefid}""/""target.Empties[id]errorsiferrors.Full{break}}}iferrors.Full{return}ifwithReferencesOk{foridvalue:=rangewithReferencesMap{WithReferenceFromJSONablevalueidtarget.Emptiesstrings.Join[]string{withReferencesRefid}""/""target.WithReferences[id]errorsiferrors.Full{break}}}iferrors.Full{return}value0ok0:=cast[""global_reference_to_an_empty""]if!ok0{errors.Addref""property is missing: global_reference_to_an_empty""}else{cast1ok1:=value0.stringif!ok1{errors.Addstrings.Join[]string{ref""global_reference_to_an_empty""}""/""fmt.Sprintf""expected a string, but got: %T""value0}else{target1ok1:=target.Empties[cast1]if!ok1{errors.Addstrings.Join[]string{ref""global_reference_to_an_empty""}""/""fmt.Sprintf""reference to an instance of class Empty not found: %s""value0}else{target.GlobalReferenceToAnEmpty=target1}}}iferrors.Full{return}return}")]
  [(s_ "funcEmptyToJSONableinstance*Emptytargetmap[string]interface{}{ifinstance==nil{panic""unexpected nil instance""}target=makemap[string]interface{}return}");
   (s_ "funcWithReferenceToJSONableinstance*WithReferencetargetmap[string]interface{}{ifinstance==nil{panic""unexpected nil instance""}target=makemap[string]interface{}target[""reference_to_an_empty""]=instance.ReferenceToAnEmpty.IDcount0:=leninstance.ArrayOfEmptiesslice0:=instance.ArrayOfEmptiestarget0:=make[]interface{}count0fori0:=0i0<count0i0++{target0[i0]=slice0[i0].ID}target[""array_of_empties""]=target0target1:=makemap[string]interface{}map1:=instance.MapOfEmptiesfork1v1:=rangemap1{target1[k1]=v1.ID}target[""map_of_empties""]=target1return}");
   (s_ "funcSomeGraphToJSONableinstance*SomeGraphtargetmap[string]interface{}errerror{ifinstance==nil{panic""unexpected nil instance""}target=makemap[string]interface{}deferfunc{iferr!=nil{target=nil}}target[""global_reference_to_an_empty""]=instance.GlobalReferenceToAnEmpty.IDifleninstance.Empties>0{targetEmpties:=makemap[string]interface{}forid:=rangeinstance.Empties{emptyInstance:=instance.Empties[id]ifid!=emptyInstance.ID{err=fmt.Errorf""expected the instance of Empty to have the ID %s according to the registry, but got: %s""idemptyInstance.IDreturn}targetEmpties[id]=EmptyToJSONableemptyInstance}target[""empties""]=targetEmpties}ifleninstance.WithReferences>0{targetWithReferences:=makemap[string]interface{}forid:=rangeinstance.WithReferences{withReferenceInstance:=instance.WithReferences[id]ifid!=withReferenceInstance.ID{err=fmt.Errorf""expected the instance of WithReference to have the ID %s according to the registry, but got: %s""idwithReferenceInstance.IDreturn}targetWithReferences[id]=WithReferenceToJSONablewithReferenceInstance}target[""with_references""]=targetWithReferences}return}")]
  [(s_ "typeEmptystruct{IDstring}");
   (s_ "typeWithReferencestruct{IDstringReferenceToAnEmpty*EmptyArrayOfEmpties[]*EmptyMapOfEmptiesmap[string]*Empty}");
   (s_ "typeSomeGraphstruct{Emptiesmap[string]*EmptyWithReferencesmap[string]*WithReferenceGlobalReferenceToAnEmpty*Empty}")]
  [(s_ "varpattern0=regexp.MustCompile^[a-zA-Z_\-][a-zA-Z_0-9\-]*$")]
  [([(s_ "value");
   (s_ "id");
   (s_ "ref");
   (s_ "target");
   (s_ "errors")], [(s_ "errors");
   (s_ "fmt");
   (s_ "id");
   (s_ "nil");
   (s_ "ok");
   (s_ "panic");
   (s_ "ref");
   (s_ "string");
   (s_ "target");
   (s_ "value")]);
   ([(s_ "value");
   (s_ "id");
   (s_ "emptiesRegistry");
   (s_ "ref");
   (s_ "target");
   (s_ "errors")], [(s_ "Empty");
   (s_ "cast");
   (s_ "cast1");
   (s_ "cast3");
   (s_ "cast4");
   (s_ "cast6");
   (s_ "cast7");
   (s_ "emptiesRegistry");
   (s_ "errors");
   (s_ "fmt");
   (s_ "i3");
   (s_ "id");
   (s_ "k6");
   (s_ "len");
   (s_ "make");
   (s_ "nil");
   (s_ "ok");
   (s_ "ok0");
   (s_ "ok1");
   (s_ "ok2");
   (s_ "ok3");
   (s_ "ok4");
   (s_ "ok5");
   (s_ "ok6");
   (s_ "ok7");
   (s_ "panic");
   (s_ "ref");
   (s_ "strconv");
   (s_ "string");
   (s_ "strings");
   (s_ "target");
   (s_ "target1");
   (s_ "target3");
   (s_ "target4");
   (s_ "target6");
   (s_ "target7");
   (s_ "value");
   (s_ "value0");
   (s_ "value2");
   (s_ "value5")]);
   ([(s_ "value");
   (s_ "ref");
   (s_ "target");
   (s_ "errors")], [(s_ "Empty");
   (s_ "EmptyFromJSONable");
   (s_ "WithReference");
   (s_ "WithReferenceFromJSONable");
   (s_ "bool");
   (s_ "cast");
   (s_ "cast1");
   (s_ "emptiesMap");
   (s_ "emptiesOk");
   (s_ "emptiesRef");
   (s_ "emptiesValue");
   (s_ "errors");
   (s_ "fmt");
   (s_ "id");
   (s_ "make");
   (s_ "nil");
   (s_ "ok");
   (s_ "ok0");
   (s_ "ok1");
   (s_ "panic");
   (s_ "pattern0");
   (s_ "ref");
   (s_ "string");
   (s_ "strings");
   (s_ "target");
   (s_ "target1");
   (s_ "value");
   (s_ "value0");
   (s_ "withReferencesMap");
   (s_ "withReferencesOk");
   (s_ "withReferencesRef");
   (s_ "withReferencesValue")])]
  [([(s_ "instance");
   (s_ "target")], [(s_ "instance");
   (s_ "make");
   (s_ "nil");
   (s_ "panic");
   (s_ "string");
   (s_ "target")]);
   ([(s_ "instance");
   (s_ "target")], [(s_ "count0");
   (s_ "i0");
   (s_ "instance");
   (s_ "k1");
   (s_ "len");
   (s_ "make");
   (s_ "map1");
   (s_ "nil");
   (s_ "panic");
   (s_ "slice0");
   (s_ "string");
   (s_ "target");
   (s_ "target0");
   (s_ "target1");
   (s_ "v1")]);
   ([(s_ "instance");
   (s_ "target");
   (s_ "err")], [(s_ "EmptyToJSONable");
   (s_ "WithReferenceToJSONable");
   (s_ "emptyInstance");
   (s_ "err");
   (s_ "fmt");
   (s_ "id");
   (s_ "instance");
   (s_ "len");
   (s_ "make");
   (s_ "nil");
   (s_ "panic");
   (s_ "string");
   (s_ "target");
   (s_ "targetEmpties");
   (s_ "targetWithReferences");
   (s_ "withReferenceInstance")])]
  [(s_ "fmt");
   (s_ "regexp");
   (s_ "strconv");
   (s_ "strings")] [(s_ "fmt")] [] [] [] [].

(** test_cases/general/class_ref_in_embed/go/test_generate *)
Definition go_general_class_ref_in_embed : go_source :=
  GoSource
  [(s_ "funcEmptyFromJSONablevalueinterface{}idstringrefstringtarget*Emptyerrors*Errors{iftarget==nil{panic""unexpected nil target""}iferrors==nil{panic""unexpected nil errors""}if!errors.Empty{panic""unexpected non-empty errors""}_ok:=value.map[string]interface{}if!ok{errors.Addreffmt.Sprintf""expected a map[string]interface{}, but got: %T""valuereturn}target.ID=idreturn}");
   (s_ "funcEmbedWithRefFromJSONablevalueinterface{}emptiesRegistrymap[string]*Emptyrefstringtarget*EmbedWithReferrors*Errors{iftarget==nil{panic""unexpected nil target""}iferrors==nil{panic""unexpected nil errors""}if!errors.Empty{panic""unexpected non-empty errors""}castok:=value.map[string]interface{}if!ok{errors.Addreffmt.Sprintf""expected a map[string]interface{}, but got: %T""valuereturn}value0ok0:=cast[""reference_to_empty""]if!ok0{errors.Addref""property is missing: reference_to_empty""}else{cast1ok1:=value0.stringif!ok1{errors.Addstrings.Join[]string{ref""reference_to_empty""}""/""fmt.Sprintf""expected a string, but got: %T""value0}else{target1ok1:=emptiesRegistry[cast1]if!ok1{errors.Addstrings.Join[]string{ref""reference_to_empty""}""/""fmt.Sprintf""reference to an instance of class Empty not found: %s""value0}else{target.ReferenceToEmpty=target1}}}iferrors.Full{return}return}");
   (s_ "funcSomeGraphFromJSONablevalueinterface{}refstringtarget*SomeGrapherrors*Errors{iftarget==nil{panic""unexpected nil target""}iferrors==nil{panic""unexpected nil errors""}if!errors.Empty{panic""unexpected non-empty errors""}castok:=value.map[string]interface{}if!ok{errors.Addreffmt.Sprintf""expected a map[string]interface{}, but got: %T""valuereturn}emptiesRef:=ref+""/empties""varemptiesOkboolvaremptiesValueinterface{}varemptiesMapmap[string]interface{}emptiesValueemptiesOk=cast[""empties""]ifemptiesOk{emptiesMapok=emptiesValue.map[string]interface{}if!ok{errors.AddemptiesReffmt.Sprintf""expected a map[string]interface{}, but got: %T""emptiesValue}else{target.Empties=makemap[string]*Emptyforid:=rangeemptiesMap{target.Empties[id]=&Empty{}}}}if!errors.Empty{return}ifemptiesOk{foridvalue:=rangeemptiesMap{EmptyFromJSONablevalueidstrings.Join[]string{emptiesRefid}""/""target.Empties[id]errorsiferrors.Full{break}}}iferrors.Full{return}value0ok0:=cast[""some_embed""]if!ok0{errors.Addref""property is missing: some_embed""}else{EmbedWithRefFromJSONablevalue0target.Emptiesstrings.Join[]string{ref""some_embed""}""/""&target.SomeEmbederrors}iferrors.Full{return}return}")]
  [(s_ "funcEmptyToJSONableinstance*Emptytargetmap[string]interface{}{ifinstance==nil{panic""unexpected nil instance""}target=makemap[string]interface{}return}");
   (s_ "funcEmbedWithRefToJSONableinstance*EmbedWithReftargetmap[string]interface{}{ifinstance==nil{panic""unexpected nil instance""}target=makemap[string]interface{}target[""reference_to_empty""]=instance.ReferenceToEmpty.IDreturn}");
   (s_ "funcSomeGraphToJSONableinstance*SomeGraphtargetmap[string]interface{}errerror{ifinstance==nil{panic""unexpected nil instance""}target=makemap[string]interface{}deferfunc{iferr!=nil{target=nil}}target[""some_embed""]=EmbedWithRefToJSONable&instance.SomeEmbedifleninstance.Empties>0{targetEmpties:=makemap[string]interface{}forid:=rangeinstance.Empties{emptyInstance:=instance.Empties[id]ifid!=emptyInstance.ID{err=fmt.Errorf""expected the instance of Empty to have the ID %s according to the registry, but got: %s""idemptyInstance.IDreturn}targetEmpties[id]=EmptyToJSONableemptyInstance}target[""empties""]=targetEmpties}return}")]
  [(s_ "typeEmbedWithRefstruct{ReferenceToEmpty*Empty}");
   (s_ "typeEmptystruct{IDstring}");
   (s_ "typeSomeGraphstruct{Emptiesmap[string]*EmptySomeEmbedEmbedWithRef}")]
  []
  [([(s_ "value");
   (s_ "id");
   (s_ "ref");
   (s_ "target");
   (s_ "errors")], [(s_ "errors");
   (s_ "fmt");
   (s_ "id");
   (s_ "nil");
   (s_ "ok");
   (s_ "panic");
   (s_ "ref");
   (s_ "string");
   (s_ "target");
   (s_ "value")]);
   ([(s_ "value");
   (s_ "emptiesRegistry");
   (s_ "ref");
   (s_ "target");
   (s_ "errors")], [(s_ "cast");
   (s_ "cast1");
   (s_ "emptiesRegistry");
   (s_ "errors");
   (s_ "fmt");
   (s_ "nil");
   (s_ "ok");
   (s_ "ok0");
   (s_ "ok1");
   (s_ "panic");
   (s_ "ref");
   (s_ "string");
   (s_ "strings");
   (s_ "target");
   (s_ "target1");
   (s_ "value");
   (s_ "value0")]);
   ([(s_ "value");
   (s_ "ref");
   (s_ "target");
   (s_ "errors")], [(s_ "EmbedWithRefFromJSONable");
   (s_ "Empty");
   (s_ "EmptyFromJSONable");
   (s_ "bool");
   (s_ "cast");
   (s_ "emptiesMap");
   (s_ "emptiesOk");
   (s_ "emptiesRef");
   (s_ "emptiesValue");
   (s_ "errors");
   (s_ "fmt");
   (s_ "id");
   (s_ "make");
   (s_ "nil");
   (s_ "ok");
   (s_ "ok0");
   (s_ "panic");
   (s_ "ref");
   (s_ "string");
   (s_ "strings");
   (s_ "target");
   (s_ "value");
   (s_ "value0")])]
  [([(s_ "instance");
   (s_ "target")], [(s_ "instance");
   (s_ "make");
   (s_ "nil");
   (s_ "panic");
   (s_ "string");
   (s_ "target")]);
   ([(s_ "instance");
   (s_ "target")], [(s_ "instance");
   (s_ "make");
   (s_ "nil");
   (s_ "panic");
   (s_ "string");
   (s_ "target")]);
   ([(s_ "instance");
   (s_ "target");
   (s_ "err")], [(s_ "EmbedWithRefToJSONable");
   (s_ "EmptyToJSONable");
   (s_ "emptyInstance");
   (s_ "err");
   (s_ "fmt");
   (s_ "id");
   (s_ "instance");
   (s_ "len");
   (s_ "make");
   (s_ "nil");
   (s_ "panic");
   (s_ "string");
   (s_ "target");
   (s_ "targetEmpties")])]
  [(s_ "fmt");
   (s_ "strings")] [(s_ "fmt")] [] [] [] [].

(** test_cases/general/embed/go/test_generate *)
Definition go_general_embed : go_source :=
  GoSource
  [(s_ "funcEmptyFromJSONablevalueinterface{}refstringtarget*Emptyerrors*Errors{iftarget==nil{panic""unexpected nil target""}iferrors==nil{panic""unexpected nil errors""}if!errors.Empty{panic""unexpected non-empty errors""}_ok:=value.map[string]interface{}if!ok{errors.Addreffmt.Sprintf""expected a map[string]interface{}, but got: %T""valuereturn}return}");
   (s_ "funcNonEmptyFromJSONablevalueinterface{}refstringtarget*NonEmptyerrors*Errors{iftarget==nil{panic""unexpected nil target""}iferrors==nil{panic""unexpected nil errors""}if!errors.Empty{panic""unexpected non-empty errors""}castok:=value.map[string]interface{}if!ok{errors.Addreffmt.Sprintf""expected a map[string]interface{}, but got: %T""valuereturn}value0ok0:=cast[""empty""]if!ok0{errors.Addref""property is missing: empty""}else{EmptyFromJSONablevalue0strings.Join[]string{ref""empty""}""/""&target.Emptyerrors}iferrors.Full{return}return}");
   (s_ "funcSomeGraphFromJSONablevalueinterface{}refstringtarget*SomeGrapherrors*Errors{iftarget==nil{panic""unexpected nil target""}iferrors==nil{panic""unexpected nil errors""}if!errors.Empty{panic""unexpected non-empty errors""}castok:=value.map[string]interface{}if!ok{errors.Addreffmt.Sprintf""expected a map[string]interface{}, but got: %T""valuereturn}value0ok0:=cast[""some_embed""]if!ok0{errors.Addref""property is missing: some_embed""}else{NonEmptyFromJSONablevalue0strings.Join[]string{ref""some_embed""}""/""&target.SomeEmbederrors}iferrors.Full{return}return}")]
  [(s_ "funcEmptyToJSONableinstance*Emptytargetmap[string]interface{}{ifinstance==nil{panic""unexpected nil instance""}target=makemap[string]interface{}return}");
   (s_ "funcNonEmptyToJSONableinstance*NonEmptytargetmap[string]interface{}{ifinstance==nil{panic""unexpected nil instance""}target=makemap[string]interface{}target[""empty""]=EmptyToJSONable&instance.Emptyreturn}");
   (s_ "funcSomeGraphToJSONableinstance*SomeGraphtargetmap[string]interface{}errerror{ifinstance==nil{panic""unexpected nil instance""}target=makemap[string]interface{}deferfunc{iferr!=nil{target=nil}}target[""some_embed""]=NonEmptyToJSONable&instance.SomeEmbedreturn}")]
  [(s_ "typeEmptystruct{}");
   (s_ "typeNonEmptystruct{EmptyEmpty}");
   (s_ "typeSomeGraphstruct{SomeEmbedNonEmpty}")]
  []
  [([(s_ "value");
   (s_ "ref");
   (s_ "target");
   (s_ "errors")], [(s_ "errors");
   (s_ "fmt");
   (s_ "nil");
   (s_ "ok");
   (s_ "panic");
   (s_ "ref");
   (s_ "string");
   (s_ "target");
   (s_ "value")]);
   ([(s_ "value");
   (s_ "ref");
   (s_ "target");
   (s_ "errors")], [(s_ "EmptyFromJSONable");
   (s_ "cast");
   (s_ "errors");
   (s_ "fmt");
   (s_ "nil");
   (s_ "ok");
   (s_ "ok0");
   (s_ "panic");
   (s_ "ref");
   (s_ "string");
   (s_ "strings");
   (s_ "target");
   (s_ "value");
   (s_ "value0")]);
   ([(s_ "value");
   (s_ "ref");
   (s_ "target");
   (s_ "errors")], [(s_ "NonEmptyFromJSONable");
   (s_ "cast");
   (s_ "errors");
   (s_ "fmt");
   (s_ "nil");
   (s_ "ok");
   (s_ "ok0");
   (s_ "panic");
   (s_ "ref");
   (s_ "string");
   (s_ "strings");
   (s_ "target");
   (s_ "value");
   (s_ "value0")])]
  [([(s_ "instance");
   (s_ "target")], [(s_ "instance");
   (s_ "make");
   (s_ "nil");
   (s_ "panic");
   (s_ "string");
   (s_ "target")]);
   ([(s_ "instance");
   (s_ "target")], [(s_ "EmptyToJSONable");
   (s_ "instance");
   (s_ "make");
   (s_ "nil");
   (s_ "panic");
   (s_ "string");
   (s_ "target")]);
   ([(s_ "instance");
   (s_ "target");
   (s_ "err")], [(s_ "NonEmptyToJSONable");
   (s_ "err");
   (s_ "instance");
   (s_ "make");
   (s_ "nil");
   (s_ "panic");
   (s_ "string");
   (s_ "target")])]
  [(s_ "fmt");
   (s_ "strings")] [] [] [] [] [].

(** test_cases/general/forward_declaration/go/test_generate *)
Definition go_general_forward_declaration : go_source :=
  GoSource
  [(s_ "funcSomeClassFromJSONablevalueinterface{}idstringotherClassesRegistrymap[string]*OtherClasssomeClassesRegistrymap[string]*SomeClassrefstringtarget*SomeClasserrors*Errors{iftarget==nil{panic""unexpected nil target""}iferrors==nil{panic""unexpected nil errors""}if!errors.Empty{panic""unexpected non-empty errors""}castok:=value.map[string]interface{}if!ok{errors.Addreffmt.Sprintf""expected a map[string]interface{}, but got: %T""valuereturn}target.ID=idvalue0ok0:=cast[""reference_other""]if!ok0{errors.Addref""property is missing: reference_other""}else{cast1ok1:=value0.stringif!ok1{errors.Addstrings.Join[]string{ref""reference_other""}""/""fmt.Sprintf""expected a string, but got: %T""value0}else{target1ok1:=otherClassesRegistry[cast1]if!ok1{errors.Addstrings.Join[]string{ref""reference_other""}""/""fmt.Sprintf""reference to an instance of class OtherClass not found: %s""value0}else{target.ReferenceOther=target1}}}iferrors.Full{return}value2ok2:=cast[""array_of_others""]if!ok2{errors.Addref""property is missing: array_of_others""}else{cast3ok3:=value2.[]interface{}if!ok3{errors.Addstrings.Join[]string{ref""array_of_others""}""/""fmt.Sprintf""expected a []interface{}, but got: %T""value2}else{target3:=make[]*OtherClasslencast3fori3:=rangecast3{cast4ok4:=cast3[i3].stringif!ok4{errors.Addstrings.Join[]string{ref""array_of_others""strconv.Itoai3}""/""fmt.Sprintf""expected a string, but got: %T""cast3[i3]}else{target4ok4:=otherClassesRegistry[cast4]if!ok4{errors.Addstrings.Join[]string{ref""array_of_others""strconv.Itoai3}""/""fmt.Sprintf""reference to an instance of class OtherClass not found: %s""cast3[i3]}else{target3[i3]=target4}}iferrors.Full{break}}target.ArrayOfOthers=target3}}iferrors.Full{return}value5ok5:=cast[""map_of_others""]if!ok5{errors.Addref""property is missing: map_of_others""}else{cast6ok6:=value5.map[string]interface{}if!ok6{errors.Addstrings.Join[]string{ref""map_of_others""}""/""fmt.Sprintf""expected a map[string]interface{}, but got: %T""value5}else{target6:=makemap[string]*OtherClassfork6:=rangecast6{cast7ok7:=cast6[k6].stringif!ok7{errors.Addstrings.Join[]string{ref""map_of_others""k6}""/""fmt.Sprintf""expected a string, but got: %T""cast6[k6]}else{target7ok7:=otherClassesRegistry[cast7]if!ok7{errors.Addstrings.Join[]string{ref""map_of_others""k6}""/""fmt.Sprintf""reference to an instance of class OtherClass not found: %s""cast6[k6]}else{target6[k6]=target7}}iferrors.Full{break}}target.MapOfOthers=target6}}iferrors.Full{return}return}");
   (s_ "funcOtherClassFromJSONablevalueinterface{}idstringotherClassesRegistrymap[string]*OtherClasssomeClassesRegistrymap[string]*SomeClassrefstringtarget*OtherClasserrors*Errors{iftarget==nil{panic""unexpected nil target""}iferrors==nil{panic""unexpected nil errors""}if!errors.Empty{panic""unexpected non-empty errors""}castok:=value.map[string]interface{}if!ok{errors.Addreffmt.Sprintf""expected a map[string]interface{}, but got: %T""valuereturn}target.ID=idvalue0ok0:=cast[""reference_some""]if!ok0{errors.Addref""property is missing: reference_some""}else{cast1ok1:=value0.stringif!ok1{errors.Addstrings.Join[]string{ref""reference_some""}""/""fmt.Sprintf""expected a string, but got: %T""value0}else{target1ok1:=someClassesRegistry[cast1]if!ok1{errors.Addstrings.Join[]string{ref""reference_some""}""/""fmt.Sprintf""reference to an instance of class SomeClass not found: %s""value0}else{target.ReferenceSome=target1}}}iferrors.Full{return}value2ok2:=cast[""array_of_somes""]if!ok2{errors.Addref""property is missing: array_of_somes""}else{cast3ok3:=value2.[]interface{}if!ok3{errors.Addstrings.Join[]string{ref""array_of_somes""}""/""fmt.Sprintf""expected a []interface{}, but got: %T""value2}else{target3:=make[]*SomeClasslencast3fori3:=rangecast3{cast4ok4:=cast3[i3].stringif!ok4{errors.Addstrings.Join[]string{ref""array_of_somes""strconv.Itoai3}""/""fmt.Sprintf""expected a string, but got: %T""cast3[i3]}else{target4ok4:=someClassesRegistry[cast4]if!ok4{errors.Addstrings.Join[]string{ref""array_of_somes""strconv.Itoai3}""/""fmt.Sprintf""reference to an instance of class SomeClass not found: %s""cast3[i3]}else{target3[i3]=target4}}iferrors.Full{break}}target.ArrayOfSomes=target3}}iferrors.Full{return}value5ok5:=cast[""map_of_somes""]if!ok5{errors.Addref""property is missing: map_of_somes""}else{cast6ok6:=value5.map[string]interface{}if!ok6{errors.Addstrings.Join[]string{ref""map_of_somes""}""/""fmt.Sprintf""expected a map[string]interface{}, but got: %T""value5}else{target6:=makemap[string]*SomeClassfork6:=rangecast6{cast7ok7:=cast6[k6].stringif!ok7{errors.Addstrings.Join[]string{ref""map_of_somes""k6}""/""fmt.Sprintf""expected a string, but got: %T""cast6[k6]}else{target7ok7:=someClassesRegistry[cast7]if!ok7{errors.Addstrings.Join[]string{ref""map_of_somes""k6}""/""fmt.Sprintf""reference to an instance of class SomeClass not found: %s""cast6[k6]}else{target6[k6]=target7}}iferrors.Full{break}}target.MapOfSomes=target6}}iferrors.Full{return}return}");
   (s_ "funcSomeGraphFromJSONablevalueinterface{}refstringtarget*SomeGrapherrors*Errors{iftarget==nil{panic""unexpected nil target""}iferrors==nil{panic""unexpected nil errors""}if!errors.Empty{panic""unexpected non-empty errors""}castok:=value.map[string]interface{}if!ok{errors.Addreffmt.Sprintf""expected a map[string]interface{}, but got: %T""valuereturn}someClassesRef:=ref+""/some_classes""varsomeClassesOkboolvarsomeClassesValueinterface{}varsomeClassesMapmap[string]interface{}someClassesValuesomeClassesOk=cast[""some_classes""]ifsomeClassesOk{someClassesMapok=someClassesValue.map[string]interface{}if!ok{errors.AddsomeClassesReffmt.Sprintf""expected a map[string]interface{}, but got: %T""someClassesValue}else{target.SomeClasses=makemap[string]*SomeClassforid:=rangesomeClassesMap{target.SomeClasses[id]=&SomeClass{}}}}otherClassesRef:=ref+""/other_classes""varotherClassesOkboolvarotherClassesValueinterface{}varotherClassesMapmap[string]interface{}otherClassesValueotherClassesOk=cast[""other_classes""]ifotherClassesOk{otherClassesMapok=otherClassesValue.map[string]interface{}if!ok{errors.AddotherClassesReffmt.Sprintf""expected a map[string]interface{}, but got: %T""otherClassesValue}else{target.OtherClasses=makemap[string]*OtherClassforid:=rangeotherClassesMap{target.OtherClasses[id]=&OtherClass{}}}}if!errors.Empty{return}ifsomeClassesOk{foridvalue:=rangesomeClassesMap{SomeClassFromJSONablevalueidtarget.OtherClassestarget.SomeClassesstrings.Join[]string{someClassesRefid}""/""target.SomeClasses[id]errorsiferrors.Full{break}}}iferrors.Full{return}ifotherClassesOk{foridvalue:=rangeotherClassesMap{OtherClassFromJSONablevalueidtarget.OtherClassestarget.SomeClassesstrings.Join[]string{otherClassesRefid}""/""target.OtherClasses[id]errorsiferrors.Full{break}}}iferrors.Full{return}return}")]
  [(s_ "funcSomeClassToJSONableinstance*SomeClasstargetmap[string]interface{}{ifinstance==nil{panic""unexpected nil instance""}target=makemap[string]interface{}target[""reference_other""]=instance.ReferenceOther.IDcount0:=leninstance.ArrayOfOthersslice0:=instance.ArrayOfOtherstarget0:=make[]interface{}count0fori0:=0i0<count0i0++{target0[i0]=slice0[i0].ID}target[""array_of_others""]=target0target1:=makemap[string]interface{}map1:=instance.MapOfOthersfork1v1:=rangemap1{target1[k1]=v1.ID}target[""map_of_others""]=target1return}");
   (s_ "funcOtherClassToJSONableinstance*OtherClasstargetmap[string]interface{}{ifinstance==nil{panic""unexpected nil instance""}target=makemap[string]interface{}target[""reference_some""]=instance.ReferenceSome.IDcount0:=leninstance.ArrayOfSomesslice0:=instance.ArrayOfSomestarget0:=make[]interface{}count0fori0:=0i0<count0i0++{target0[i0]=slice0[i0].ID}target[""array_of_somes""]=target0target1:=makemap[string]interface{}map1:=instance.MapOfSomesfork1v1:=rangemap1{target1[k1]=v1.ID}target[""map_of_somes""]=target1return}");
   (s_ "funcSomeGraphToJSONableinstance*SomeGraphtargetmap[string]interface{}errerror{ifinstance==nil{panic""unexpected nil instance""}target=makemap[string]interface{}deferfunc{iferr!=nil{target=nil}}ifleninstance.SomeClasses>0{targetSomeClasses:=makemap[string]interface{}forid:=rangeinstance.SomeClasses{someClassInstance:=instance.SomeClasses[id]ifid!=someClassInstance.ID{err=fmt.Errorf""expected the instance of SomeClass to have the ID %s according to the registry, but got: %s""idsomeClassInstance.IDreturn}targetSomeClasses[id]=SomeClassToJSONablesomeClassInstance}target[""some_classes""]=targetSomeClasses}ifleninstance.OtherClasses>0{targetOtherClasses:=makemap[string]interface{}forid:=rangeinstance.OtherClasses{otherClassInstance:=instance.OtherClasses[id]ifid!=otherClassInstance.ID{err=fmt.Errorf""expected the instance of OtherClass to have the ID %s according to the registry, but got: %s""idotherClassInstance.IDreturn}targetOtherClasses[id]=OtherClassToJSONableotherClassInstance}target[""other_classes""]=targetOtherClasses}return}")]
  [(s_ "typeSomeClassstruct{IDstringReferenceOther*OtherClassArrayOfOthers[]*OtherClassMapOfOthersmap[string]*OtherClass}");
   (s_ "typeOtherClassstruct{IDstringReferenceSome*SomeClassArrayOfSomes[]*SomeClassMapOfSomesmap[string]*SomeClass}");
   (s_ "typeSomeGraphstruct{SomeClassesmap[string]*SomeClassOtherClassesmap[string]*OtherClass}")]
  []
  [([(s_ "value");
   (s_ "id");
   (s_ "otherClassesRegistry");
   (s_ "someClassesRegistry");
   (s_ "ref");
   (s_ "target");
   (s_ "errors")], [(s_ "OtherClass");
   (s_ "cast");
   (s_ "cast1");
   (s_ "cast3");
   (s_ "cast4");
   (s_ "cast6");
   (s_ "cast7");
   (s_ "errors");
   (s_ "fmt");
   (s_ "i3");
   (s_ "id");
   (s_ "k6");
   (s_ "len");
   (s_ "make");
   (s_ "nil");
   (s_ "ok");
   (s_ "ok0");
   (s_ "ok1");
   (s_ "ok2");
   (s_ "ok3");
   (s_ "ok4");
   (s_ "ok5");
   (s_ "ok6");
   (s_ "ok7");
   (s_ "otherClassesRegistry");
   (s_ "panic");
   (s_ "ref");
   (s_ "strconv");
   (s_ "string");
   (s_ "strings");
   (s_ "target");
   (s_ "target1");
   (s_ "target3");
   (s_ "target4");
   (s_ "target6");
   (s_ "target7");
   (s_ "value");
   (s_ "value0");
   (s_ "value2");
   (s_ "value5")]);
   ([(s_ "value");
   (s_ "id");
   (s_ "otherClassesRegistry");
   (s_ "someClassesRegistry");
   (s_ "ref");
   (s_ "target");
   (s_ "errors")], [(s_ "SomeClass");
   (s_ "cast");
   (s_ "cast1");
   (s_ "cast3");
   (s_ "cast4");
   (s_ "cast6");
   (s_ "cast7");
   (s_ "errors");
   (s_ "fmt");
   (s_ "i3");
   (s_ "id");
   (s_ "k6");
   (s_ "len");
   (s_ "make");
   (s_ "nil");
   (s_ "ok");
   (s_ "ok0");
   (s_ "ok1");
   (s_ "ok2");
   (s_ "ok3");
   (s_ "ok4");
   (s_ "ok5");
   (s_ "ok6");
   (s_ "ok7");
   (s_ "panic");
   (s_ "ref");
   (s_ "someClassesRegistry");
   (s_ "strconv");
   (s_ "string");
   (s_ "strings");
   (s_ "target");
   (s_ "target1");
   (s_ "target3");
   (s_ "target4");
   (s_ "target6");
   (s_ "target7");
   (s_ "value");
   (s_ "value0");
   (s_ "value2");
   (s_ "value5")]);
   ([(s_ "value");
   (s_ "ref");
   (s_ "target");
   (s_ "errors")], [(s_ "OtherClass");
   (s_ "OtherClassFromJSONable");
   (s_ "SomeClass");
   (s_ "SomeClassFromJSONable");
   (s_ "bool");
   (s_ "cast");
   (s_ "errors");
   (s_ "fmt");
   (s_ "id");
   (s_ "make");
   (s_ "nil");
   (s_ "ok");
   (s_ "otherClassesMap");
   (s_ "otherClassesOk");
   (s_ "otherClassesRef");
   (s_ "otherClassesValue");
   (s_ "panic");
   (s_ "ref");
   (s_ "someClassesMap");
   (s_ "someClassesOk");
   (s_ "someClassesRef");
   (s_ "someClassesValue");
   (s_ "string");
   (s_ "strings");
   (s_ "target");
   (s_ "value")])]
  [([(s_ "instance");
   (s_ "target")], [(s_ "count0");
   (s_ "i0");
   (s_ "instance");
   (s_ "k1");
   (s_ "len");
   (s_ "make");
   (s_ "map1");
   (s_ "nil");
   (s_ "panic");
   (s_ "slice0");
   (s_ "string");
   (s_ "target");
   (s_ "target0");
   (s_ "target1");
   (s_ "v1")]);
   ([(s_ "instance");
   (s_ "target")], [(s_ "count0");
   (s_ "i0");
   (s_ "instance");
   (s_ "k1");
   (s_ "len");
   (s_ "make");
   (s_ "map1");
   (s_ "nil");
   (s_ "panic");
   (s_ "slice0");
   (s_ "string");
   (s_ "target");
   (s_ "target0");
   (s_ "target1");
   (s_ "v1")]);
   ([(s_ "instance");
   (s_ "target");
   (s_ "err")], [(s_ "OtherClassToJSONable");
   (s_ "SomeClassToJSONable");
   (s_ "err");
   (s_ "fmt");
   (s_ "id");
   (s_ "instance");
   (s_ "len");
   (s_ "make");
   (s_ "nil");
   (s_ "otherClassInstance");
   (s_ "panic");
   (s_ "someClassInstance");
   (s_ "string");
   (s_ "target");
   (s_ "targetOtherClasses");
   (s_ "targetSomeClasses")])]
  [(s_ "fmt");
   (s_ "strconv");
   (s_ "strings")] [(s_ "fmt")] [] [] [] [].

(** test_cases/general/json_property/go/test_generate *)
Definition go_general_json_property : go_source :=
  GoSource
  [(s_ "funcSomeGraphFromJSONablevalueinterface{}refstringtarget*SomeGrapherrors*Errors{iftarget==nil{panic""unexpected nil target""}iferrors==nil{panic""unexpected nil errors""}if!errors.Empty{panic""unexpected non-empty errors""}castok:=value.map[string]interface{}if!ok{errors.Addreffmt.Sprintf""expected a map[string]interface{}, but got: %T""valuereturn}value0ok0:=cast[""SOME-BOOL""]if!ok0{errors.Addref""property is missing: SOME-BOOL""}else{cast1ok1:=value0.boolif!ok1{errors.Addstrings.Join[]string{ref""SOME-BOOL""}""/""fmt.Sprintf""expected a bool, but got: %T""value0}else{target.SomeBool=cast1}}iferrors.Full{return}return}")]
  [(s_ "funcSomeGraphToJSONableinstance*SomeGraphtargetmap[string]interface{}errerror{ifinstance==nil{panic""unexpected nil instance""}target=makemap[string]interface{}deferfunc{iferr!=nil{target=nil}}target[""SOME-BOOL""]=instance.SomeBoolreturn}")]
  [(s_ "typeSomeGraphstruct{SomeBoolbool}")]
  []
  [([(s_ "value");
   (s_ "ref");
   (s_ "target");
   (s_ "errors")], [(s_ "bool");
   (s_ "cast");
   (s_ "cast1");
   (s_ "errors");
   (s_ "fmt");
   (s_ "nil");
   (s_ "ok");
   (s_ "ok0");
   (s_ "ok1");
   (s_ "panic");
   (s_ "ref");
   (s_ "string");
   (s_ "strings");
   (s_ "target");
   (s_ "value");
   (s_ "value0")])]
  [([(s_ "instance");
   (s_ "target");
   (s_ "err")], [(s_ "err");
   (s_ "instance");
   (s_ "make");
   (s_ "nil");
   (s_ "panic");
   (s_ "string");
   (s_ "target")])]
  [(s_ "fmt");
   (s_ "strings")] [] [] [] [] [].

(** test_cases/general/map/invalid_type/go/test_generate *)
Definition go_general_map_invalid_type : go_source :=
  GoSource
  [(s_ "funcSomeGraphFromJSONablevalueinterface{}refstringtarget*SomeGrapherrors*Errors{iftarget==nil{panic""unexpected nil target""}iferrors==nil{panic""unexpected nil errors""}if!errors.Empty{panic""unexpected non-empty errors""}castok:=value.map[string]interface{}if!ok{errors.Addreffmt.Sprintf""expected a map[string]interface{}, but got: %T""valuereturn}value0ok0:=cast[""map_of_booleans""]if!ok0{errors.Addref""property is missing: map_of_booleans""}else{cast1ok1:=value0.map[string]interface{}if!ok1{errors.Addstrings.Join[]string{ref""map_of_booleans""}""/""fmt.Sprintf""expected a map[string]interface{}, but got: %T""value0}else{target1:=makemap[string]boolfork1:=rangecast1{cast2ok2:=cast1[k1].boolif!ok2{errors.Addstrings.Join[]string{ref""map_of_booleans""k1}""/""fmt.Sprintf""expected a bool, but got: %T""cast1[k1]}else{target1[k1]=cast2}iferrors.Full{break}}target.MapOfBooleans=target1}}iferrors.Full{return}return}")]
  [(s_ "funcSomeGraphToJSONableinstance*SomeGraphtargetmap[string]interface{}errerror{ifinstance==nil{panic""unexpected nil instance""}target=makemap[string]interface{}deferfunc{iferr!=nil{target=nil}}target0:=makemap[string]interface{}map0:=instance.MapOfBooleansfork0v0:=rangemap0{target0[k0]=v0}target[""map_of_booleans""]=target0return}")]
  [(s_ "typeSomeGraphstruct{MapOfBooleansmap[string]bool}")]
  []
  [([(s_ "value");
   (s_ "ref");
   (s_ "target");
   (s_ "errors")], [(s_ "bool");
   (s_ "cast");
   (s_ "cast1");
   (s_ "cast2");
   (s_ "errors");
   (s_ "fmt");
   (s_ "k1");
   (s_ "make");
   (s_ "nil");
   (s_ "ok");
   (s_ "ok0");
   (s_ "ok1");
   (s_ "ok2");
   (s_ "panic");
   (s_ "ref");
   (s_ "string");
   (s_ "strings");
   (s_ "target");
   (s_ "target1");
   (s_ "value");
   (s_ "value0")])]
  [([(s_ "instance");
   (s_ "target");
   (s_ "err")], [(s_ "err");
   (s_ "instance");
   (s_ "k0");
   (s_ "make");
   (s_ "map0");
   (s_ "nil");
   (s_ "panic");
   (s_ "string");
   (s_ "target");
   (s_ "target0");
   (s_ "v0")])]
  [(s_ "fmt");
   (s_ "strings")] [] [] [] [] [].

(** test_cases/general/map/of/array/go/test_generate *)
Definition go_general_map_of_array : go_source :=
  GoSource
  [(s_ "funcSomeGraphFromJSONablevalueinterface{}refstringtarget*SomeGrapherrors*Errors{iftarget==nil{panic""unexpected nil target""}iferrors==nil{panic""unexpected nil errors""}if!errors.Empty{panic""unexpected non-empty errors""}castok:=value.map[string]interface{}if!ok{errors.Addreffmt.Sprintf""expected a map[string]interface{}, but got: %T""valuereturn}value0ok0:=cast[""map_of_arrays""]if!ok0{errors.Addref""property is missing: map_of_arrays""}else{cast1ok1:=value0.map[string]interface{}if!ok1{errors.Addstrings.Join[]string{ref""map_of_arrays""}""/""fmt.Sprintf""expected a map[string]interface{}, but got: %T""value0}else{target1:=makemap[string][]boolfork1:=rangecast1{cast2ok2:=cast1[k1].[]interface{}if!ok2{errors.Addstrings.Join[]string{ref""map_of_arrays""k1}""/""fmt.Sprintf""expected a []interface{}, but got: %T""cast1[k1]}else{target2:=make[]boollencast2fori2:=rangecast2{cast3ok3:=cast2[i2].boolif!ok3{errors.Addstrings.Join[]string{ref""map_of_arrays""k1strconv.Itoai2}""/""fmt.Sprintf""expected a bool, but got: %T""cast2[i2]}else{target2[i2]=cast3}iferrors.Full{break}}target1[k1]=target2}iferrors.Full{break}}target.MapOfArrays=target1}}iferrors.Full{return}return}")]
  [(s_ "funcSomeGraphToJSONableinstance*SomeGraphtargetmap[string]interface{}errerror{ifinstance==nil{panic""unexpected nil instance""}target=makemap[string]interface{}deferfunc{iferr!=nil{target=nil}}target0:=makemap[string]interface{}map0:=instance.MapOfArraysfork0v0:=rangemap0{count1:=lenv0slice1:=v0target1:=make[]interface{}count1fori1:=0i1<count1i1++{target1[i1]=slice1[i1]}target0[k0]=target1}target[""map_of_arrays""]=target0return}")]
  [(s_ "typeSomeGraphstruct{MapOfArraysmap[string][]bool}")]
  []
  [([(s_ "value");
   (s_ "ref");
   (s_ "target");
   (s_ "errors")], [(s_ "bool");
   (s_ "cast");
   (s_ "cast1");
   (s_ "cast2");
   (s_ "cast3");
   (s_ "errors");
   (s_ "fmt");
   (s_ "i2");
   (s_ "k1");
   (s_ "len");
   (s_ "make");
   (s_ "nil");
   (s_ "ok");
   (s_ "ok0");
   (s_ "ok1");
   (s_ "ok2");
   (s_ "ok3");
   (s_ "panic");
   (s_ "ref");
   (s_ "strconv");
   (s_ "string");
   (s_ "strings");
   (s_ "target");
   (s_ "target1");
   (s_ "target2");
   (s_ "value");
   (s_ "value0")])]
  [([(s_ "instance");
   (s_ "target");
   (s_ "err")], [(s_ "count1");
   (s_ "err");
   (s_ "i1");
   (s_ "instance");
   (s_ "k0");
   (s_ "len");
   (s_ "make");
   (s_ "map0");
   (s_ "nil");
   (s_ "panic");
   (s_ "slice1");
   (s_ "string");
   (s_ "target");
   (s_ "target0");
   (s_ "target1");
   (s_ "v0")])]
  [(s_ "fmt");
   (s_ "strconv");
   (s_ "strings")] [] [] [] [] [].

(** test_cases/general/map/of/boolean/go/test_generate *)
Definition go_general_map_of_boolean : go_source :=
  GoSource
  [(s_ "funcSomeGraphFromJSONablevalueinterface{}refstringtarget*SomeGrapherrors*Errors{iftarget==nil{panic""unexpected nil target""}iferrors==nil{panic""unexpected nil errors""}if!errors.Empty{panic""unexpected non-empty errors""}castok:=value.map[string]interface{}if!ok{errors.Addreffmt.Sprintf""expected a map[string]interface{}, but got: %T""valuereturn}value0ok0:=cast[""map_of_booleans""]if!ok0{errors.Addref""property is missing: map_of_booleans""}else{cast1ok1:=value0.map[string]interface{}if!ok1{errors.Addstrings.Join[]string{ref""map_of_booleans""}""/""fmt.Sprintf""expected a map[string]interface{}, but got: %T""value0}else{target1:=makemap[string]boolfork1:=rangecast1{cast2ok2:=cast1[k1].boolif!ok2{errors.Addstrings.Join[]string{ref""map_of_booleans""k1}""/""fmt.Sprintf""expected a bool, but got: %T""cast1[k1]}else{target1[k1]=cast2}iferrors.Full{break}}target.MapOfBooleans=target1}}iferrors.Full{return}return}")]
  [(s_ "funcSomeGraphToJSONableinstance*SomeGraphtargetmap[string]interface{}errerror{ifinstance==nil{panic""unexpected nil instance""}target=makemap[string]interface{}deferfunc{iferr!=nil{target=nil}}target0:=makemap[string]interface{}map0:=instance.MapOfBooleansfork0v0:=rangemap0{target0[k0]=v0}target[""map_of_booleans""]=target0return}")]
  [(s_ "typeSomeGraphstruct{MapOfBooleansmap[string]bool}")]
  []
  [([(s_ "value");
   (s_ "ref");
   (s_ "target");
   (s_ "errors")], [(s_ "bool");
   (s_ "cast");
   (s_ "cast1");
   (s_ "cast2");
   (s_ "errors");
   (s_ "fmt");
   (s_ "k1");
   (s_ "make");
   (s_ "nil");
   (s_ "ok");
   (s_ "ok0");
   (s_ "ok1");
   (s_ "ok2");
   (s_ "panic");
   (s_ "ref");
   (s_ "string");
   (s_ "strings");
   (s_ "target");
   (s_ "target1");
   (s_ "value");
   (s_ "value0")])]
  [([(s_ "instance");
   (s_ "target");
   (s_ "err")], [(s_ "err");
   (s_ "instance");
   (s_ "k0");
   (s_ "make");
   (s_ "map0");
   (s_ "nil");
   (s_ "panic");
   (s_ "string");
   (s_ "target");
   (s_ "target0");
   (s_ "v0")])]
  [(s_ "fmt");
   (s_ "strings")] [] [] [] [] [].

(** test_cases/general/map/of/class_ref/go/test_generate *)
Definition go_general_map_of_class_ref : go_source :=
  GoSource
  [(s_ "funcEmptyFromJSONablevalueinterface{}idstringrefstringtarget*Emptyerrors*Errors{iftarget==nil{panic""unexpected nil target""}iferrors==nil{panic""unexpected nil errors""}if!errors.Empty{panic""unexpected non-empty errors""}_ok:=value.map[string]interface{}if!ok{errors.Addreffmt.Sprintf""expected a map[string]interface{}, but got: %T""valuereturn}target.ID=idreturn}");
   (s_ "funcSomeGraphFromJSONablevalueinterface{}refstringtarget*SomeGrapherrors*Errors{iftarget==nil{panic""unexpected nil target""}iferrors==nil{panic""unexpected nil errors""}if!errors.Empty{panic""unexpected non-empty errors""}castok:=value.map[string]interface{}if!ok{errors.Addreffmt.Sprintf""expected a map[string]interface{}, but got: %T""valuereturn}emptiesRef:=ref+""/empties""varemptiesOkboolvaremptiesValueinterface{}varemptiesMapmap[string]interface{}emptiesValueemptiesOk=cast[""empties""]ifemptiesOk{emptiesMapok=emptiesValue.map[string]interface{}if!ok{errors.AddemptiesReffmt.Sprintf""expected a map[string]interface{}, but got: %T""emptiesValue}else{target.Empties=makemap[string]*Emptyforid:=rangeemptiesMap{target.Empties[id]=&Empty{}}}}if!errors.Empty{return}ifemptiesOk{foridvalue:=rangeemptiesMap{EmptyFromJSONablevalueidstrings.Join[]string{emptiesRefid}""/""target.Empties[id]errorsiferrors.Full{break}}}iferrors.Full{return}value0ok0:=cast[""map_of_class_refs""]if!ok0{errors.Addref""property is missing: map_of_class_refs""}else{cast1ok1:=value0.map[string]interface{}if!ok1{errors.Addstrings.Join[]string{ref""map_of_class_refs""}""/""fmt.Sprintf""expected a map[string]interface{}, but got: %T""value0}else{target1:=makemap[string]*Emptyfork1:=rangecast1{cast2ok2:=cast1[k1].stringif!ok2{errors.Addstrings.Join[]string{ref""map_of_class_refs""k1}""/""fmt.Sprintf""expected a string, but got: %T""cast1[k1]}else{target2ok2:=target.Empties[cast2]if!ok2{errors.Addstrings.Join[]string{ref""map_of_class_refs""k1}""/""fmt.Sprintf""reference to an instance of class Empty not found: %s""cast1[k1]}else{target1[k1]=target2}}iferrors.Full{break}}target.MapOfClassRefs=target1}}iferrors.Full{return}return}")]
  [(s_ "funcEmptyToJSONableinstance*Emptytargetmap[string]interface{}{ifinstance==nil{panic""unexpected nil instance""}target=makemap[string]interface{}return}");
   (s_ "funcSomeGraphToJSONableinstance*SomeGraphtargetmap[string]interface{}errerror{ifinstance==nil{panic""unexpected nil instance""}target=makemap[string]interface{}deferfunc{iferr!=nil{target=nil}}target0:=makemap[string]interface{}map0:=instance.MapOfClassRefsfork0v0:=rangemap0{target0[k0]=v0.ID}target[""map_of_class_refs""]=target0ifleninstance.Empties>0{targetEmpties:=makemap[string]interface{}forid:=rangeinstance.Empties{emptyInstance:=instance.Empties[id]ifid!=emptyInstance.ID{err=fmt.Errorf""expected the instance of Empty to have the ID %s according to the registry, but got: %s""idemptyInstance.IDreturn}targetEmpties[id]=EmptyToJSONableemptyInstance}target[""empties""]=targetEmpties}return}")]
  [(s_ "typeEmptystruct{IDstring}");
   (s_ "typeSomeGraphstruct{Emptiesmap[string]*EmptyMapOfClassRefsmap[string]*Empty}")]
  []
  [([(s_ "value");
   (s_ "id");
   (s_ "ref");
   (s_ "target");
   (s_ "errors")], [(s_ "errors");
   (s_ "fmt");
   (s_ "id");
   (s_ "nil");
   (s_ "ok");
   (s_ "panic");
   (s_ "ref");
   (s_ "string");
   (s_ "target");
   (s_ "value")]);
   ([(s_ "value");
   (s_ "ref");
   (s_ "target");
   (s_ "errors")], [(s_ "Empty");
   (s_ "EmptyFromJSONable");
   (s_ "bool");
   (s_ "cast");
   (s_ "cast1");
   (s_ "cast2");
   (s_ "emptiesMap");
   (s_ "emptiesOk");
   (s_ "emptiesRef");
   (s_ "emptiesValue");
   (s_ "errors");
   (s_ "fmt");
   (s_ "id");
   (s_ "k1");
   (s_ "make");
   (s_ "nil");
   (s_ "ok");
   (s_ "ok0");
   (s_ "ok1");
   (s_ "ok2");
   (s_ "panic");
   (s_ "ref");
   (s_ "string");
   (s_ "strings");
   (s_ "target");
   (s_ "target1");
   (s_ "target2");
   (s_ "value");
   (s_ "value0")])]
  [([(s_ "instance");
   (s_ "target")], [(s_ "instance");
   (s_ "make");
   (s_ "nil");
   (s_ "panic");
   (s_ "string");
   (s_ "target")]);
   ([(s_ "instance");
   (s_ "target");
   (s_ "err")], [(s_ "EmptyToJSONable");
   (s_ "emptyInstance");
   (s_ "err");
   (s_ "fmt");
   (s_ "id");
   (s_ "instance");
   (s_ "k0");
   (s_ "len");
   (s_ "make");
   (s_ "map0");
   (s_ "nil");
   (s_ "panic");
   (s_ "string");
   (s_ "target");
   (s_ "target0");
   (s_ "targetEmpties");
   (s_ "v0")])]
  [(s_ "fmt");
   (s_ "strings")] [(s_ "fmt")] [] [] [] [].

(** test_cases/general/map/of/date/go/test_generate *)
Definition go_general_map_of_date : go_source :=
  GoSource
  [(s_ "funcSomeGraphFromJSONablevalueinterface{}refstringtarget*SomeGrapherrors*Errors{iftarget==nil{panic""unexpected nil target""}iferrors==nil{panic""unexpected nil errors""}if!errors.Empty{panic""unexpected non-empty errors""}castok:=value.map[string]interface{}if!ok{errors.Addreffmt.Sprintf""expected a map[string]interface{}, but got: %T""valuereturn}value0ok0:=cast[""map_of_dates""]if!ok0{errors.Addref""property is missing: map_of_dates""}else{cast1ok1:=value0.map[string]interface{}if!ok1{errors.Addstrings.Join[]string{ref""map_of_dates""}""/""fmt.Sprintf""expected a map[string]interface{}, but got: %T""value0}else{target1:=makemap[string]time.Timefork1:=rangecast1{cast2ok2:=cast1[k1].stringif!ok2{errors.Addstrings.Join[]string{ref""map_of_dates""k1}""/""fmt.Sprintf""expected a string, but got: %T""cast1[k1]}else{target2err2:=time.Parse""2006-01-02""cast2iferr2!=nil{errors.Addstrings.Join[]string{ref""map_of_dates""k1}""/""fmt.Sprintf""expected layout 2006-01-02, got: %s""cast2}else{target1[k1]=target2}}iferrors.Full{break}}target.MapOfDates=target1}}iferrors.Full{return}return}")]
  [(s_ "funcSomeGraphToJSONableinstance*SomeGraphtargetmap[string]interface{}errerror{ifinstance==nil{panic""unexpected nil instance""}target=makemap[string]interface{}deferfunc{iferr!=nil{target=nil}}target0:=makemap[string]interface{}map0:=instance.MapOfDatesfork0v0:=rangemap0{target0[k0]=v0.Format""2006-01-02""}target[""map_of_dates""]=target0return}")]
  [(s_ "typeSomeGraphstruct{MapOfDatesmap[string]time.Time}")]
  []
  [([(s_ "value");
   (s_ "ref");
   (s_ "target");
   (s_ "errors")], [(s_ "cast");
   (s_ "cast1");
   (s_ "cast2");
   (s_ "err2");
   (s_ "errors");
   (s_ "fmt");
   (s_ "k1");
   (s_ "make");
   (s_ "nil");
   (s_ "ok");
   (s_ "ok0");
   (s_ "ok1");
   (s_ "ok2");
   (s_ "panic");
   (s_ "ref");
   (s_ "string");
   (s_ "strings");
   (s_ "target");
   (s_ "target1");
   (s_ "target2");
   (s_ "time");
   (s_ "value");
   (s_ "value0")])]
  [([(s_ "instance");
   (s_ "target");
   (s_ "err")], [(s_ "err");
   (s_ "instance");
   (s_ "k0");
   (s_ "make");
   (s_ "map0");
   (s_ "nil");
   (s_ "panic");
   (s_ "string");
   (s_ "target");
   (s_ "target0");
   (s_ "v0")])]
  [(s_ "fmt");
   (s_ "strings");
   (s_ "time")] [] [(s_ "time")] [] [] [].

(** test_cases/general/map/of/datetime/go/test_generate *)
Definition go_general_map_of_datetime : go_source :=
  GoSource
  [(s_ "funcSomeGraphFromJSONablevalueinterface{}refstringtarget*SomeGrapherrors*Errors{iftarget==nil{panic""unexpected nil target""}iferrors==nil{panic""unexpected nil errors""}if!errors.Empty{panic""unexpected non-empty errors""}castok:=value.map[string]interface{}if!ok{errors.Addreffmt.Sprintf""expected a map[string]interface{}, but got: %T""valuereturn}value0ok0:=cast[""map_of_datetimes""]if!ok0{errors.Addref""property is missing: map_of_datetimes""}else{cast1ok1:=value0.map[string]interface{}if!ok1{errors.Addstrings.Join[]string{ref""map_of_datetimes""}""/""fmt.Sprintf""expected a map[string]interface{}, but got: %T""value0}else{target1:=makemap[string]time.Timefork1:=rangecast1{cast2ok2:=cast1[k1].stringif!ok2{errors.Addstrings.Join[]string{ref""map_of_datetimes""k1}""/""fmt.Sprintf""expected a string, but got: %T""cast1[k1]}else{target2err2:=time.Parse""2006-01-02T15:04:05Z""cast2iferr2!=nil{errors.Addstrings.Join[]string{ref""map_of_datetimes""k1}""/""fmt.Sprintf""expected layout 2006-01-02T15:04:05Z, got: %s""cast2}else{target1[k1]=target2}}iferrors.Full{break}}target.MapOfDatetimes=target1}}iferrors.Full{return}return}")]
  [(s_ "funcSomeGraphToJSONableinstance*SomeGraphtargetmap[string]interface{}errerror{ifinstance==nil{panic""unexpected nil instance""}target=makemap[string]interface{}deferfunc{iferr!=nil{target=nil}}target0:=makemap[string]interface{}map0:=instance.MapOfDatetimesfork0v0:=rangemap0{target0[k0]=v0.Format""2006-01-02T15:04:05Z""}target[""map_of_datetimes""]=target0return}")]
  [(s_ "typeSomeGraphstruct{MapOfDatetimesmap[string]time.Time}")]
  []
  [([(s_ "value");
   (s_ "ref");
   (s_ "target");
   (s_ "errors")], [(s_ "cast");
   (s_ "cast1");
   (s_ "cast2");
   (s_ "err2");
   (s_ "errors");
   (s_ "fmt");
   (s_ "k1");
   (s_ "make");
   (s_ "nil");
   (s_ "ok");
   (s_ "ok0");
   (s_ "ok1");
   (s_ "ok2");
   (s_ "panic");
   (s_ "ref");
   (s_ "string");
   (s_ "strings");
   (s_ "target");
   (s_ "target1");
   (s_ "target2");
   (s_ "time");
   (s_ "value");
   (s_ "value0")])]
  [([(s_ "instance");
   (s_ "target");
   (s_ "err")], [(s_ "err");
   (s_ "instance");
   (s_ "k0");
   (s_ "make");
   (s_ "map0");
   (s_ "nil");
   (s_ "panic");
   (s_ "string");
   (s_ "target");
   (s_ "target0");
   (s_ "v0")])]
  [(s_ "fmt");
   (s_ "strings");
   (s_ "time")] [] [(s_ "time")] [] [] [].

(** test_cases/general/map/of/duration/go/test_generate *)
Definition go_general_map_of_duration : go_source :=
  GoSource
  [(s_ "funcSomeGraphFromJSONablevalueinterface{}refstringtarget*SomeGrapherrors*Errors{iftarget==nil{panic""unexpected nil target""}iferrors==nil{panic""unexpected nil errors""}if!errors.Empty{panic""unexpected non-empty errors""}castok:=value.map[string]interface{}if!ok{errors.Addreffmt.Sprintf""expected a map[string]interface{}, but got: %T""valuereturn}value0ok0:=cast[""map_of_durations""]if!ok0{errors.Addref""property is missing: map_of_durations""}else{cast1ok1:=value0.map[string]interface{}if!ok1{errors.Addstrings.Join[]string{ref""map_of_durations""}""/""fmt.Sprintf""expected a map[string]interface{}, but got: %T""value0}else{target1:=makemap[string]time.Durationfork1:=rangecast1{cast2ok2:=cast1[k1].stringif!ok2{errors.Addstrings.Join[]string{ref""map_of_durations""k1}""/""fmt.Sprintf""expected a string, but got: %T""cast1[k1]}else{target2err2:=durationFromStringcast2iferr2!=nil{errors.Addstrings.Join[]string{ref""map_of_durations""k1}""/""fmt.Sprintf""failed to parse duration from %#v: %s""cast2err2.Error}else{target1[k1]=target2}}iferrors.Full{break}}target.MapOfDurations=target1}}iferrors.Full{return}return}")]
  [(s_ "funcSomeGraphToJSONableinstance*SomeGraphtargetmap[string]interface{}errerror{ifinstance==nil{panic""unexpected nil instance""}target=makemap[string]interface{}deferfunc{iferr!=nil{target=nil}}target0:=makemap[string]interface{}map0:=instance.MapOfDurationsfork0v0:=rangemap0{target0[k0]=durationToStringv0}target[""map_of_durations""]=target0return}")]
  [(s_ "typeSomeGraphstruct{MapOfDurationsmap[string]time.Duration}")]
  []
  [([(s_ "value");
   (s_ "ref");
   (s_ "target");
   (s_ "errors")], [(s_ "cast");
   (s_ "cast1");
   (s_ "cast2");
   (s_ "durationFromString");
   (s_ "err2");
   (s_ "errors");
   (s_ "fmt");
   (s_ "k1");
   (s_ "make");
   (s_ "nil");
   (s_ "ok");
   (s_ "ok0");
   (s_ "ok1");
   (s_ "ok2");
   (s_ "panic");
   (s_ "ref");
   (s_ "string");
   (s_ "strings");
   (s_ "target");
   (s_ "target1");
   (s_ "target2");
   (s_ "time");
   (s_ "value");
   (s_ "value0")])]
  [([(s_ "instance");
   (s_ "target");
   (s_ "err")], [(s_ "durationToString");
   (s_ "err");
   (s_ "instance");
   (s_ "k0");
   (s_ "make");
   (s_ "map0");
   (s_ "nil");
   (s_ "panic");
   (s_ "string");
   (s_ "target");
   (s_ "target0");
   (s_ "v0")])]
  [(s_ "fmt");
   (s_ "math");
   (s_ "regexp");
   (s_ "strconv");
   (s_ "strings");
   (s_ "time")] [(s_ "fmt");
   (s_ "strings");
   (s_ "time")] [(s_ "time")] [(s_ "fmt")] [(s_ "fmt");
   (s_ "time")] [].

(** test_cases/general/map/of/embed/go/test_generate *)
Definition go_general_map_of_embed : go_source :=
  GoSource
  [(s_ "funcSomeEmbedFromJSONablevalueinterface{}refstringtarget*SomeEmbederrors*Errors{iftarget==nil{panic""unexpected nil target""}iferrors==nil{panic""unexpected nil errors""}if!errors.Empty{panic""unexpected non-empty errors""}castok:=value.map[string]interface{}if!ok{errors.Addreffmt.Sprintf""expected a map[string]interface{}, but got: %T""valuereturn}value0ok0:=cast[""some_property""]if!ok0{errors.Addref""property is missing: some_property""}else{cast1ok1:=value0.boolif!ok1{errors.Addstrings.Join[]string{ref""some_property""}""/""fmt.Sprintf""expected a bool, but got: %T""value0}else{target.SomeProperty=cast1}}iferrors.Full{return}return}");
   (s_ "funcSomeGraphFromJSONablevalueinterface{}refstringtarget*SomeGrapherrors*Errors{iftarget==nil{panic""unexpected nil target""}iferrors==nil{panic""unexpected nil errors""}if!errors.Empty{panic""unexpected non-empty errors""}castok:=value.map[string]interface{}if!ok{errors.Addreffmt.Sprintf""expected a map[string]interface{}, but got: %T""valuereturn}value0ok0:=cast[""map_of_embeds""]if!ok0{errors.Addref""property is missing: map_of_embeds""}else{cast1ok1:=value0.map[string]interface{}if!ok1{errors.Addstrings.Join[]string{ref""map_of_embeds""}""/""fmt.Sprintf""expected a map[string]interface{}, but got: %T""value0}else{target1:=makemap[string]SomeEmbedfork1:=rangecast1{varitem1SomeEmbedSomeEmbedFromJSONablecast1[k1]strings.Join[]string{ref""map_of_embeds""k1}""/""&item1errorstarget1[k1]=item1iferrors.Full{break}}target.MapOfEmbeds=target1}}iferrors.Full{return}return}")]
  [(s_ "funcSomeEmbedToJSONableinstance*SomeEmbedtargetmap[string]interface{}{ifinstance==nil{panic""unexpected nil instance""}target=makemap[string]interface{}target[""some_property""]=instance.SomePropertyreturn}");
   (s_ "funcSomeGraphToJSONableinstance*SomeGraphtargetmap[string]interface{}errerror{ifinstance==nil{panic""unexpected nil instance""}target=makemap[string]interface{}deferfunc{iferr!=nil{target=nil}}target0:=makemap[string]interface{}map0:=instance.MapOfEmbedsfork0v0:=rangemap0{target0[k0]=SomeEmbedToJSONable&v0}target[""map_of_embeds""]=target0return}")]
  [(s_ "typeSomeEmbedstruct{SomePropertybool}");
   (s_ "typeSomeGraphstruct{MapOfEmbedsmap[string]SomeEmbed}")]
  []
  [([(s_ "value");
   (s_ "ref");
   (s_ "target");
   (s_ "errors")], [(s_ "bool");
   (s_ "cast");
   (s_ "cast1");
   (s_ "errors");
   (s_ "fmt");
   (s_ "nil");
   (s_ "ok");
   (s_ "ok0");
   (s_ "ok1");
   (s_ "panic");
   (s_ "ref");
   (s_ "string");
   (s_ "strings");
   (s_ "target");
   (s_ "value");
   (s_ "value0")]);
   ([(s_ "value");
   (s_ "ref");
   (s_ "target");
   (s_ "errors")], [(s_ "SomeEmbed");
   (s_ "SomeEmbedFromJSONable");
   (s_ "cast");
   (s_ "cast1");
   (s_ "errors");
   (s_ "fmt");
   (s_ "item1");
   (s_ "k1");
   (s_ "make");
   (s_ "nil");
   (s_ "ok");
   (s_ "ok0");
   (s_ "ok1");
   (s_ "panic");
   (s_ "ref");
   (s_ "string");
   (s_ "strings");
   (s_ "target");
   (s_ "target1");
   (s_ "value");
   (s_ "value0")])]
  [([(s_ "instance");
   (s_ "target")], [(s_ "instance");
   (s_ "make");
   (s_ "nil");
   (s_ "panic");
   (s_ "string");
   (s_ "target")]);
   ([(s_ "instance");
   (s_ "target");
   (s_ "err")], [(s_ "SomeEmbedToJSONable");
   (s_ "err");
   (s_ "instance");
   (s_ "k0");
   (s_ "make");
   (s_ "map0");
   (s_ "nil");
   (s_ "panic");
   (s_ "string");
   (s_ "target");
   (s_ "target0");
   (s_ "v0")])]
  [(s_ "fmt");
   (s_ "strings")] [] [] [] [] [].

(** test_cases/general/map/of/float/go/test_generate *)
Definition go_general_map_of_float : go_source :=
  GoSource
  [(s_ "funcSomeGraphFromJSONablevalueinterface{}refstringtarget*SomeGrapherrors*Errors{iftarget==nil{panic""unexpected nil target""}iferrors==nil{panic""unexpected nil errors""}if!errors.Empty{panic""unexpected non-empty errors""}castok:=value.map[string]interface{}if!ok{errors.Addreffmt.Sprintf""expected a map[string]interface{}, but got: %T""valuereturn}value0ok0:=cast[""map_of_floats""]if!ok0{errors.Addref""property is missing: map_of_floats""}else{cast1ok1:=value0.map[string]interface{}if!ok1{errors.Addstrings.Join[]string{ref""map_of_floats""}""/""fmt.Sprintf""expected a map[string]interface{}, but got: %T""value0}else{target1:=makemap[string]float64fork1:=rangecast1{cast2ok2:=cast1[k1].float64if!ok2{errors.Addstrings.Join[]string{ref""map_of_floats""k1}""/""fmt.Sprintf""expected a float64, but got: %T""cast1[k1]}else{target1[k1]=cast2}iferrors.Full{break}}target.MapOfFloats=target1}}iferrors.Full{return}return}")]
  [(s_ "funcSomeGraphToJSONableinstance*SomeGraphtargetmap[string]interface{}errerror{ifinstance==nil{panic""unexpected nil instance""}target=makemap[string]interface{}deferfunc{iferr!=nil{target=nil}}target0:=makemap[string]interface{}map0:=instance.MapOfFloatsfork0v0:=rangemap0{target0[k0]=v0}target[""map_of_floats""]=target0return}")]
  [(s_ "typeSomeGraphstruct{MapOfFloatsmap[string]float64}")]
  []
  [([(s_ "value");
   (s_ "ref");
   (s_ "target");
   (s_ "errors")], [(s_ "cast");
   (s_ "cast1");
   (s_ "cast2");
   (s_ "errors");
   (s_ "float64");
   (s_ "fmt");
   (s_ "k1");
   (s_ "make");
   (s_ "nil");
   (s_ "ok");
   (s_ "ok0");
   (s_ "ok1");
   (s_ "ok2");
   (s_ "panic");
   (s_ "ref");
   (s_ "string");
   (s_ "strings");
   (s_ "target");
   (s_ "target1");
   (s_ "value");
   (s_ "value0")])]
  [([(s_ "instance");
   (s_ "target");
   (s_ "err")], [(s_ "err");
   (s_ "instance");
   (s_ "k0");
   (s_ "make");
   (s_ "map0");
   (s_ "nil");
   (s_ "panic");
   (s_ "string");
   (s_ "target");
   (s_ "target0");
   (s_ "v0")])]
  [(s_ "fmt");
   (s_ "strings")] [] [] [] [] [].

(** test_cases/general/map/of/integer/go/test_generate *)
Definition go_general_map_of_integer : go_source :=
  GoSource
  [(s_ "funcSomeGraphFromJSONablevalueinterface{}refstringtarget*SomeGrapherrors*Errors{iftarget==nil{panic""unexpected nil target""}iferrors==nil{panic""unexpected nil errors""}if!errors.Empty{panic""unexpected non-empty errors""}castok:=value.map[string]interface{}if!ok{errors.Addreffmt.Sprintf""expected a map[string]interface{}, but got: %T""valuereturn}value0ok0:=cast[""map_of_integers""]if!ok0{errors.Addref""property is missing: map_of_integers""}else{cast1ok1:=value0.map[string]interface{}if!ok1{errors.Addstrings.Join[]string{ref""map_of_integers""}""/""fmt.Sprintf""expected a map[string]interface{}, but got: %T""value0}else{target1:=makemap[string]int64fork1:=rangecast1{fcast2ok2:=cast1[k1].float64if!ok2{errors.Addstrings.Join[]string{ref""map_of_integers""k1}""/""fmt.Sprintf""expected a float64, but got: %T""cast1[k1]}else{iffcast2!=math.Truncfcast2{errors.Addstrings.Join[]string{ref""map_of_integers""k1}""/""fmt.Sprintf""expected a whole number, but got: %f""fcast2}else{iffcast2>=9223372036854775808||fcast2<-9223372036854775808{errors.Addstrings.Join[]string{ref""map_of_integers""k1}""/""fmt.Sprintf""expected the value to fit into int64, but got an overflow: %f""fcast2}else{target1[k1]=int64fcast2}}}iferrors.Full{break}}target.MapOfIntegers=target1}}iferrors.Full{return}return}")]
  [(s_ "funcSomeGraphToJSONableinstance*SomeGraphtargetmap[string]interface{}errerror{ifinstance==nil{panic""unexpected nil instance""}target=makemap[string]interface{}deferfunc{iferr!=nil{target=nil}}target0:=makemap[string]interface{}map0:=instance.MapOfIntegersfork0v0:=rangemap0{target0[k0]=v0}target[""map_of_integers""]=target0return}")]
  [(s_ "typeSomeGraphstruct{MapOfIntegersmap[string]int64}")]
  []
  [([(s_ "value");
   (s_ "ref");
   (s_ "target");
   (s_ "errors")], [(s_ "cast");
   (s_ "cast1");
   (s_ "errors");
   (s_ "fcast2");
   (s_ "float64");
   (s_ "fmt");
   (s_ "int64");
   (s_ "k1");
   (s_ "make");
   (s_ "math");
   (s_ "nil");
   (s_ "ok");
   (s_ "ok0");
   (s_ "ok1");
   (s_ "ok2");
   (s_ "panic");
   (s_ "ref");
   (s_ "string");
   (s_ "strings");
   (s_ "target");
   (s_ "target1");
   (s_ "value");
   (s_ "value0")])]
  [([(s_ "instance");
   (s_ "target");
   (s_ "err")], [(s_ "err");
   (s_ "instance");
   (s_ "k0");
   (s_ "make");
   (s_ "map0");
   (s_ "nil");
   (s_ "panic");
   (s_ "string");
   (s_ "target");
   (s_ "target0");
   (s_ "v0")])]
  [(s_ "fmt");
   (s_ "math");
   (s_ "strings")] [] [] [] [] [].

(** test_cases/general/map/of/map/go/test_generate *)
Definition go_general_map_of_map : go_source :=
  GoSource
  [(s_ "funcSomeGraphFromJSONablevalueinterface{}refstringtarget*SomeGrapherrors*Errors{iftarget==nil{panic""unexpected nil target""}iferrors==nil{panic""unexpected nil errors""}if!errors.Empty{panic""unexpected non-empty errors""}castok:=value.map[string]interface{}if!ok{errors.Addreffmt.Sprintf""expected a map[string]interface{}, but got: %T""valuereturn}value0ok0:=cast[""map_of_maps""]if!ok0{errors.Addref""property is missing: map_of_maps""}else{cast1ok1:=value0.map[string]interface{}if!ok1{errors.Addstrings.Join[]string{ref""map_of_maps""}""/""fmt.Sprintf""expected a map[string]interface{}, but got: %T""value0}else{target1:=makemap[string]map[string]boolfork1:=rangecast1{cast2ok2:=cast1[k1].map[string]interface{}if!ok2{errors.Addstrings.Join[]string{ref""map_of_maps""k1}""/""fmt.Sprintf""expected a map[string]interface{}, but got: %T""cast1[k1]}else{target2:=makemap[string]boolfork2:=rangecast2{cast3ok3:=cast2[k2].boolif!ok3{errors.Addstrings.Join[]string{ref""map_of_maps""k1k2}""/""fmt.Sprintf""expected a bool, but got: %T""cast2[k2]}else{target2[k2]=cast3}iferrors.Full{break}}target1[k1]=target2}iferrors.Full{break}}target.MapOfMaps=target1}}iferrors.Full{return}return}")]
  [(s_ "funcSomeGraphToJSONableinstance*SomeGraphtargetmap[string]interface{}errerror{ifinstance==nil{panic""unexpected nil instance""}target=makemap[string]interface{}deferfunc{iferr!=nil{target=nil}}target0:=makemap[string]interface{}map0:=instance.MapOfMapsfork0v0:=rangemap0{target1:=makemap[string]interface{}map1:=v0fork1v1:=rangemap1{target1[k1]=v1}target0[k0]=target1}target[""map_of_maps""]=target0return}")]
  [(s_ "typeSomeGraphstruct{MapOfMapsmap[string]map[string]bool}")]
  []
  [([(s_ "value");
   (s_ "ref");
   (s_ "target");
   (s_ "errors")], [(s_ "bool");
   (s_ "cast");
   (s_ "cast1");
   (s_ "cast2");
   (s_ "cast3");
   (s_ "errors");
   (s_ "fmt");
   (s_ "k1");
   (s_ "k2");
   (s_ "make");
   (s_ "nil");
   (s_ "ok");
   (s_ "ok0");
   (s_ "ok1");
   (s_ "ok2");
   (s_ "ok3");
   (s_ "panic");
   (s_ "ref");
   (s_ "string");
   (s_ "strings");
   (s_ "target");
   (s_ "target1");
   (s_ "target2");
   (s_ "value");
   (s_ "value0")])]
  [([(s_ "instance");
   (s_ "target");
   (s_ "err")], [(s_ "err");
   (s_ "instance");
   (s_ "k0");
   (s_ "k1");
   (s_ "make");
   (s_ "map0");
   (s_ "map1");
   (s_ "nil");
   (s_ "panic");
   (s_ "string");
   (s_ "target");
   (s_ "target0");
   (s_ "target1");
   (s_ "v0");
   (s_ "v1")])]
  [(s_ "fmt");
   (s_ "strings")] [] [] [] [] [].

(** test_cases/general/map/of/path/go/test_generate *)
Definition go_general_map_of_path : go_source :=
  GoSource
  [(s_ "funcSomeGraphFromJSONablevalueinterface{}refstringtarget*SomeGrapherrors*Errors{iftarget==nil{panic""unexpected nil target""}iferrors==nil{panic""unexpected nil errors""}if!errors.Empty{panic""unexpected non-empty errors""}castok:=value.map[string]interface{}if!ok{errors.Addreffmt.Sprintf""expected a map[string]interface{}, but got: %T""valuereturn}value0ok0:=cast[""map_of_paths""]if!ok0{errors.Addref""property is missing: map_of_paths""}else{cast1ok1:=value0.map[string]interface{}if!ok1{errors.Addstrings.Join[]string{ref""map_of_paths""}""/""fmt.Sprintf""expected a map[string]interface{}, but got: %T""value0}else{target1:=makemap[string]stringfork1:=rangecast1{cast2ok2:=cast1[k1].stringif!ok2{errors.Addstrings.Join[]string{ref""map_of_paths""k1}""/""fmt.Sprintf""expected a string, but got: %T""cast1[k1]}else{target1[k1]=cast2}iferrors.Full{break}}target.MapOfPaths=target1}}iferrors.Full{return}return}")]
  [(s_ "funcSomeGraphToJSONableinstance*SomeGraphtargetmap[string]interface{}errerror{ifinstance==nil{panic""unexpected nil instance""}target=makemap[string]interface{}deferfunc{iferr!=nil{target=nil}}target0:=makemap[string]interface{}map0:=instance.MapOfPathsfork0v0:=rangemap0{target0[k0]=v0}target[""map_of_paths""]=target0return}")]
  [(s_ "typeSomeGraphstruct{MapOfPathsmap[string]string}")]
  []
  [([(s_ "value");
   (s_ "ref");
   (s_ "target");
   (s_ "errors")], [(s_ "cast");
   (s_ "cast1");
   (s_ "cast2");
   (s_ "errors");
   (s_ "fmt");
   (s_ "k1");
   (s_ "make");
   (s_ "nil");
   (s_ "ok");
   (s_ "ok0");
   (s_ "ok1");
   (s_ "ok2");
   (s_ "panic");
   (s_ "ref");
   (s_ "string");
   (s_ "strings");
   (s_ "target");
   (s_ "target1");
   (s_ "value");
   (s_ "value0")])]
  [([(s_ "instance");
   (s_ "target");
   (s_ "err")], [(s_ "err");
   (s_ "instance");
   (s_ "k0");
   (s_ "make");
   (s_ "map0");
   (s_ "nil");
   (s_ "panic");
   (s_ "string");
   (s_ "target");
   (s_ "target0");
   (s_ "v0")])]
  [(s_ "fmt");
   (s_ "strings")] [] [] [] [] [].

(** test_cases/general/map/of/string/go/test_generate *)
Definition go_general_map_of_string : go_source :=
  GoSource
  [(s_ "funcSomeGraphFromJSONablevalueinterface{}refstringtarget*SomeGrapherrors*Errors{iftarget==nil{panic""unexpected nil target""}iferrors==nil{panic""unexpected nil errors""}if!errors.Empty{panic""unexpected non-empty errors""}castok:=value.map[string]interface{}if!ok{errors.Addreffmt.Sprintf""expected a map[string]interface{}, but got: %T""valuereturn}value0ok0:=cast[""map_of_strings""]if!ok0{errors.Addref""property is missing: map_of_strings""}else{cast1ok1:=value0.map[string]interface{}if!ok1{errors.Addstrings.Join[]string{ref""map_of_strings""}""/""fmt.Sprintf""expected a map[string]interface{}, but got: %T""value0}else{target1:=makemap[string]stringfork1:=rangecast1{cast2ok2:=cast1[k1].stringif!ok2{errors.Addstrings.Join[]string{ref""map_of_strings""k1}""/""fmt.Sprintf""expected a string, but got: %T""cast1[k1]}else{if!pattern0.MatchStringcast2{errors.Addstrings.Join[]string{ref""map_of_strings""k1}""/""fmt.Sprintf""expected to match ^hello.*$, but got: %s""cast2}else{target1[k1]=cast2}}iferrors.Full{break}}target.MapOfStrings=target1}}iferrors.Full{return}return}")]
  [(s_ "funcSomeGraphToJSONableinstance*SomeGraphtargetmap[string]interface{}errerror{ifinstance==nil{panic""unexpected nil instance""}target=makemap[string]interface{}deferfunc{iferr!=nil{target=nil}}target0:=makemap[string]interface{}map0:=instance.MapOfStringsfork0v0:=rangemap0{target0[k0]=v0}target[""map_of_strings""]=target0return}")]
  [(s_ "typeSomeGraphstruct{MapOfStringsmap[string]string}")]
  [(s_ "varpattern0=regexp.MustCompile^hello.*$")]
  [([(s_ "value");
   (s_ "ref");
   (s_ "target");
   (s_ "errors")], [(s_ "cast");
   (s_ "cast1");
   (s_ "cast2");
   (s_ "errors");
   (s_ "fmt");
   (s_ "k1");
   (s_ "make");
   (s_ "nil");
   (s_ "ok");
   (s_ "ok0");
   (s_ "ok1");
   (s_ "ok2");
   (s_ "panic");
   (s_ "pattern0");
   (s_ "ref");
   (s_ "string");
   (s_ "strings");
   (s_ "target");
   (s_ "target1");
   (s_ "value");
   (s_ "value0")])]
  [([(s_ "instance");
   (s_ "target");
   (s_ "err")], [(s_ "err");
   (s_ "instance");
   (s_ "k0");
   (s_ "make");
   (s_ "map0");
   (s_ "nil");
   (s_ "panic");
   (s_ "string");
   (s_ "target");
   (s_ "target0");
   (s_ "v0")])]
  [(s_ "fmt");
   (s_ "regexp");
   (s_ "strings")] [] [] [] [] [].

(** test_cases/general/map/of/time_zone/go/test_generate *)
Definition go_general_map_of_time_zone : go_source :=
  GoSource
  [(s_ "funcSomeGraphFromJSONablevalueinterface{}refstringtarget*SomeGrapherrors*Errors{iftarget==nil{panic""unexpected nil target""}iferrors==nil{panic""unexpected nil errors""}if!errors.Empty{panic""unexpected non-empty errors""}castok:=value.map[string]interface{}if!ok{errors.Addreffmt.Sprintf""expected a map[string]interface{}, but got: %T""valuereturn}value0ok0:=cast[""map_of_time_zones""]if!ok0{errors.Addref""property is missing: map_of_time_zones""}else{cast1ok1:=value0.map[string]interface{}if!ok1{errors.Addstrings.Join[]string{ref""map_of_time_zones""}""/""fmt.Sprintf""expected a map[string]interface{}, but got: %T""value0}else{target1:=makemap[string]*time.Locationfork1:=rangecast1{cast2ok2:=cast1[k1].stringif!ok2{errors.Addstrings.Join[]string{ref""map_of_time_zones""k1}""/""fmt.Sprintf""expected a string, but got: %T""cast1[k1]}else{target2err2:=time.LoadLocationcast2iferr2!=nil{errors.Addstrings.Join[]string{ref""map_of_time_zones""k1}""/""fmt.Sprintf""failed to load location from %#v: %s""cast2err2.Error}else{target1[k1]=target2}}iferrors.Full{break}}target.MapOfTimeZones=target1}}iferrors.Full{return}return}")]
  [(s_ "funcSomeGraphToJSONableinstance*SomeGraphtargetmap[string]interface{}errerror{ifinstance==nil{panic""unexpected nil instance""}target=makemap[string]interface{}deferfunc{iferr!=nil{target=nil}}target0:=makemap[string]interface{}map0:=instance.MapOfTimeZonesfork0v0:=rangemap0{target0[k0]=v0.String}target[""map_of_time_zones""]=target0return}")]
  [(s_ "typeSomeGraphstruct{MapOfTimeZonesmap[string]*time.Location}")]
  []
  [([(s_ "value");
   (s_ "ref");
   (s_ "target");
   (s_ "errors")], [(s_ "cast");
   (s_ "cast1");
   (s_ "cast2");
   (s_ "err2");
   (s_ "errors");
   (s_ "fmt");
   (s_ "k1");
   (s_ "make");
   (s_ "nil");
   (s_ "ok");
   (s_ "ok0");
   (s_ "ok1");
   (s_ "ok2");
   (s_ "panic");
   (s_ "ref");
   (s_ "string");
   (s_ "strings");
   (s_ "target");
   (s_ "target1");
   (s_ "target2");
   (s_ "time");
   (s_ "value");
   (s_ "value0")])]
  [([(s_ "instance");
   (s_ "target");
   (s_ "err")], [(s_ "err");
   (s_ "instance");
   (s_ "k0");
   (s_ "make");
   (s_ "map0");
   (s_ "nil");
   (s_ "panic");
   (s_ "string");
   (s_ "target");
   (s_ "target0");
   (s_ "v0")])]
  [(s_ "fmt");
   (s_ "strings");
   (s_ "time")] [] [(s_ "time")] [] [] [].

(** test_cases/general/optional_in_class/go/test_generate *)
Definition go_general_optional_in_class : go_source :=
  GoSource
  [(s_ "funcWithOptionalFromJSONablevalueinterface{}idstringrefstringtarget*WithOptionalerrors*Errors{iftarget==nil{panic""unexpected nil target""}iferrors==nil{panic""unexpected nil errors""}if!errors.Empty{panic""unexpected non-empty errors""}castok:=value.map[string]interface{}if!ok{errors.Addreffmt.Sprintf""expected a map[string]interface{}, but got: %T""valuereturn}target.ID=idvalue0ok0:=cast[""some_text""]ifok0{vartarget0stringcast1ok1:=value0.stringif!ok1{errors.Addstrings.Join[]string{ref""some_text""}""/""fmt.Sprintf""expected a string, but got: %T""value0}else{target0=cast1}target.SomeText=&target0}iferrors.Full{return}return}");
   (s_ "funcSomeGraphFromJSONablevalueinterface{}refstringtarget*SomeGrapherrors*Errors{iftarget==nil{panic""unexpected nil target""}iferrors==nil{panic""unexpected nil errors""}if!errors.Empty{panic""unexpected non-empty errors""}castok:=value.map[string]interface{}if!ok{errors.Addreffmt.Sprintf""expected a map[string]interface{}, but got: %T""valuereturn}withOptionalsRef:=ref+""/with_optionals""varwithOptionalsOkboolvarwithOptionalsValueinterface{}varwithOptionalsMapmap[string]interface{}withOptionalsValuewithOptionalsOk=cast[""with_optionals""]ifwithOptionalsOk{withOptionalsMapok=withOptionalsValue.map[string]interface{}if!ok{errors.AddwithOptionalsReffmt.Sprintf""expected a map[string]interface{}, but got: %T""withOptionalsValue}else{target.WithOptionals=makemap[string]*WithOptionalforid:=rangewithOptionalsMap{target.WithOptionals[id]=&WithOptional{}}}}if!errors.Empty{return}ifwithOptionalsOk{foridvalue:=rangewithOptionalsMap{WithOptionalFromJSONablevalueidstrings.Join[]string{withOptionalsRefid}""/""target.WithOptionals[id]errorsiferrors.Full{break}}}iferrors.Full{return}return}")]
  [(s_ "funcWithOptionalToJSONableinstance*WithOptionaltargetmap[string]interface{}{ifinstance==nil{panic""unexpected nil instance""}target=makemap[string]interface{}ifinstance.SomeText!=nil{target[""some_text""]=*instance.SomeText}return}");
   (s_ "funcSomeGraphToJSONableinstance*SomeGraphtargetmap[string]interface{}errerror{ifinstance==nil{panic""unexpected nil instance""}target=makemap[string]interface{}deferfunc{iferr!=nil{target=nil}}ifleninstance.WithOptionals>0{targetWithOptionals:=makemap[string]interface{}forid:=rangeinstance.WithOptionals{withOptionalInstance:=instance.WithOptionals[id]ifid!=withOptionalInstance.ID{err=fmt.Errorf""expected the instance of WithOptional to have the ID %s according to the registry, but got: %s""idwithOptionalInstance.IDreturn}targetWithOptionals[id]=WithOptionalToJSONablewithOptionalInstance}target[""with_optionals""]=targetWithOptionals}return}")]
  [(s_ "typeWithOptionalstruct{IDstringSomeText*string}");
   (s_ "typeSomeGraphstruct{WithOptionalsmap[string]*WithOptional}")]
  []
  [([(s_ "value");
   (s_ "id");
   (s_ "ref");
   (s_ "target");
   (s_ "errors")], [(s_ "cast");
   (s_ "cast1");
   (s_ "errors");
   (s_ "fmt");
   (s_ "id");
   (s_ "nil");
   (s_ "ok");
   (s_ "ok0");
   (s_ "ok1");
   (s_ "panic");
   (s_ "ref");
   (s_ "string");
   (s_ "strings");
   (s_ "target");
   (s_ "target0");
   (s_ "value");
   (s_ "value0")]);
   ([(s_ "value");
   (s_ "ref");
   (s_ "target");
   (s_ "errors")], [(s_ "WithOptional");
   (s_ "WithOptionalFromJSONable");
   (s_ "bool");
   (s_ "cast");
   (s_ "errors");
   (s_ "fmt");
   (s_ "id");
   (s_ "make");
   (s_ "nil");
   (s_ "ok");
   (s_ "panic");
   (s_ "ref");
   (s_ "string");
   (s_ "strings");
   (s_ "target");
   (s_ "value");
   (s_ "withOptionalsMap");
   (s_ "withOptionalsOk");
   (s_ "withOptionalsRef");
   (s_ "withOptionalsValue")])]
  [([(s_ "instance");
   (s_ "target")], [(s_ "instance");
   (s_ "make");
   (s_ "nil");
   (s_ "panic");
   (s_ "string");
   (s_ "target")]);
   ([(s_ "instance");
   (s_ "target");
   (s_ "err")], [(s_ "WithOptionalToJSONable");
   (s_ "err");
   (s_ "fmt");
   (s_ "id");
   (s_ "instance");
   (s_ "len");
   (s_ "make");
   (s_ "nil");
   (s_ "panic");
   (s_ "string");
   (s_ "target");
   (s_ "targetWithOptionals");
   (s_ "withOptionalInstance")])]
  [(s_ "fmt");
   (s_ "strings")] [(s_ "fmt")] [] [] [] [].

(** test_cases/general/optional_in_embed/go/test_generate *)
Definition go_general_optional_in_embed : go_source :=
  GoSource
  [(s_ "funcWithOptionalFromJSONablevalueinterface{}refstringtarget*WithOptionalerrors*Errors{iftarget==nil{panic""unexpected nil target""}iferrors==nil{panic""unexpected nil errors""}if!errors.Empty{panic""unexpected non-empty errors""}castok:=value.map[string]interface{}if!ok{errors.Addreffmt.Sprintf""expected a map[string]interface{}, but got: %T""valuereturn}value0ok0:=cast[""some_text""]ifok0{vartarget0stringcast1ok1:=value0.stringif!ok1{errors.Addstrings.Join[]string{ref""some_text""}""/""fmt.Sprintf""expected a string, but got: %T""value0}else{target0=cast1}target.SomeText=&target0}iferrors.Full{return}return}");
   (s_ "funcSomeGraphFromJSONablevalueinterface{}refstringtarget*SomeGrapherrors*Errors{iftarget==nil{panic""unexpected nil target""}iferrors==nil{panic""unexpected nil errors""}if!errors.Empty{panic""unexpected non-empty errors""}castok:=value.map[string]interface{}if!ok{errors.Addreffmt.Sprintf""expected a map[string]interface{}, but got: %T""valuereturn}value0ok0:=cast[""some_property""]if!ok0{errors.Addref""property is missing: some_property""}else{WithOptionalFromJSONablevalue0strings.Join[]string{ref""some_property""}""/""&target.SomePropertyerrors}iferrors.Full{return}return}")]
  [(s_ "funcWithOptionalToJSONableinstance*WithOptionaltargetmap[string]interface{}{ifinstance==nil{panic""unexpected nil instance""}target=makemap[string]interface{}ifinstance.SomeText!=nil{target[""some_text""]=*instance.SomeText}return}");
   (s_ "funcSomeGraphToJSONableinstance*SomeGraphtargetmap[string]interface{}errerror{ifinstance==nil{panic""unexpected nil instance""}target=makemap[string]interface{}deferfunc{iferr!=nil{target=nil}}target[""some_property""]=WithOptionalToJSONable&instance.SomePropertyreturn}")]
  [(s_ "typeWithOptionalstruct{SomeText*string}");
   (s_ "typeSomeGraphstruct{SomePropertyWithOptional}")]
  []
  [([(s_ "value");
   (s_ "ref");
   (s_ "target");
   (s_ "errors")], [(s_ "cast");
   (s_ "cast1");
   (s_ "errors");
   (s_ "fmt");
   (s_ "nil");
   (s_ "ok");
   (s_ "ok0");
   (s_ "ok1");
   (s_ "panic");
   (s_ "ref");
   (s_ "string");
   (s_ "strings");
   (s_ "target");
   (s_ "target0");
   (s_ "value");
   (s_ "value0")]);
   ([(s_ "value");
   (s_ "ref");
   (s_ "target");
   (s_ "errors")], [(s_ "WithOptionalFromJSONable");
   (s_ "cast");
   (s_ "errors");
   (s_ "fmt");
   (s_ "nil");
   (s_ "ok");
   (s_ "ok0");
   (s_ "panic");
   (s_ "ref");
   (s_ "string");
   (s_ "strings");
   (s_ "target");
   (s_ "value");
   (s_ "value0")])]
  [([(s_ "instance");
   (s_ "target")], [(s_ "instance");
   (s_ "make");
   (s_ "nil");
   (s_ "panic");
   (s_ "string");
   (s_ "target")]);
   ([(s_ "instance");
   (s_ "target");
   (s_ "err")], [(s_ "WithOptionalToJSONable");
   (s_ "err");
   (s_ "instance");
   (s_ "make");
   (s_ "nil");
   (s_ "panic");
   (s_ "string");
   (s_ "target")])]
  [(s_ "fmt");
   (s_ "strings")] [] [] [] [] [].

(** test_cases/general/optional_in_graph/go/test_generate *)
Definition go_general_optional_in_graph : go_source :=
  GoSource
  [(s_ "funcEmptyFromJSONablevalueinterface{}idstringrefstringtarget*Emptyerrors*Errors{iftarget==nil{panic""unexpected nil target""}iferrors==nil{panic""unexpected nil errors""}if!errors.Empty{panic""unexpected non-empty errors""}_ok:=value.map[string]interface{}if!ok{errors.Addreffmt.Sprintf""expected a map[string]interface{}, but got: %T""valuereturn}target.ID=idreturn}");
   (s_ "funcSomeEmbedFromJSONablevalueinterface{}refstringtarget*SomeEmbederrors*Errors{iftarget==nil{panic""unexpected nil target""}iferrors==nil{panic""unexpected nil errors""}if!errors.Empty{panic""unexpected non-empty errors""}_ok:=value.map[string]interface{}if!ok{errors.Addreffmt.Sprintf""expected a map[string]interface{}, but got: %T""valuereturn}return}");
   (s_ "funcSomeGraphFromJSONablevalueinterface{}refstringtarget*SomeGrapherrors*Errors{iftarget==nil{panic""unexpected nil target""}iferrors==nil{panic""unexpected nil errors""}if!errors.Empty{panic""unexpected non-empty errors""}castok:=value.map[string]interface{}if!ok{errors.Addreffmt.Sprintf""expected a map[string]interface{}, but got: %T""valuereturn}emptiesRef:=ref+""/empties""varemptiesOkboolvaremptiesValueinterface{}varemptiesMapmap[string]interface{}emptiesValueemptiesOk=cast[""empties""]ifemptiesOk{emptiesMapok=emptiesValue.map[string]interface{}if!ok{errors.AddemptiesReffmt.Sprintf""expected a map[string]interface{}, but got: %T""emptiesValue}else{target.Empties=makemap[string]*Emptyforid:=rangeemptiesMap{target.Empties[id]=&Empty{}}}}if!errors.Empty{return}ifemptiesOk{foridvalue:=rangeemptiesMap{EmptyFromJSONablevalueidstrings.Join[]string{emptiesRefid}""/""target.Empties[id]errorsiferrors.Full{break}}}iferrors.Full{return}value0ok0:=cast[""optional_array""]ifok0{cast1ok1:=value0.[]interface{}if!ok1{errors.Addstrings.Join[]string{ref""optional_array""}""/""fmt.Sprintf""expected a []interface{}, but got: %T""value0}else{target1:=make[]int64lencast1fori1:=rangecast1{fcast2ok2:=cast1[i1].float64if!ok2{errors.Addstrings.Join[]string{ref""optional_array""strconv.Itoai1}""/""fmt.Sprintf""expected a float64, but got: %T""cast1[i1]}else{iffcast2!=math.Truncfcast2{errors.Addstrings.Join[]string{ref""optional_array""strconv.Itoai1}""/""fmt.Sprintf""expected a whole number, but got: %f""fcast2}else{iffcast2>=9223372036854775808||fcast2<-9223372036854775808{errors.Addstrings.Join[]string{ref""optional_array""strconv.Itoai1}""/""fmt.Sprintf""expected the value to fit into int64, but got an overflow: %f""fcast2}else{target1[i1]=int64fcast2}}}iferrors.Full{break}}target.OptionalArray=target1}}iferrors.Full{return}value3ok3:=cast[""optional_boolean""]ifok3{vartarget3boolcast4ok4:=value3.boolif!ok4{errors.Addstrings.Join[]string{ref""optional_boolean""}""/""fmt.Sprintf""expected a bool, but got: %T""value3}else{target3=cast4}target.OptionalBoolean=&target3}iferrors.Full{return}value5ok5:=cast[""optional_date""]ifok5{vartarget5time.Timecast6ok6:=value5.stringif!ok6{errors.Addstrings.Join[]string{ref""optional_date""}""/""fmt.Sprintf""expected a string, but got: %T""value5}else{target6err6:=time.Parse""2006-01-02""cast6iferr6!=nil{errors.Addstrings.Join[]string{ref""optional_date""}""/""fmt.Sprintf""expected layout 2006-01-02, got: %s""cast6}else{target5=target6}}target.OptionalDate=&target5}iferrors.Full{return}value7ok7:=cast[""optional_datetime""]ifok7{vartarget7time.Timecast8ok8:=value7.stringif!ok8{errors.Addstrings.Join[]string{ref""optional_datetime""}""/""fmt.Sprintf""expected a string, but got: %T""value7}else{target8err8:=time.Parse""2006-01-02T15:04:05Z""cast8iferr8!=nil{errors.Addstrings.Join[]string{ref""optional_datetime""}""/""fmt.Sprintf""expected layout 2006-01-02T15:04:05Z, got: %s""cast8}else{target7=target8}}target.OptionalDatetime=&target7}iferrors.Full{return}value9ok9:=cast[""optional_duration""]ifok9{vartarget9time.Durationcast10ok10:=value9.stringif!ok10{errors.Addstrings.Join[]string{ref""optional_duration""}""/""fmt.Sprintf""expected a string, but got: %T""value9}else{target10err10:=durationFromStringcast10iferr10!=nil{errors.Addstrings.Join[]string{ref""optional_duration""}""/""fmt.Sprintf""failed to parse duration from %#v: %s""cast10err10.Error}else{target9=target10}}target.OptionalDuration=&target9}iferrors.Full{return}value11ok11:=cast[""optional_float""]ifok11{vartarget11float64cast12ok12:=value11.float64if!ok12{errors.Addstrings.Join[]string{ref""optional_float""}""/""fmt.Sprintf""expected a float64, but got: %T""value11}else{target11=cast12}target.OptionalFloat=&target11}iferrors.Full{return}value13ok13:=cast[""optional_integer""]ifok13{vartarget13int64fcast14ok14:=value13.float64if!ok14{errors.Addstrings.Join[]string{ref""optional_integer""}""/""fmt.Sprintf""expected a float64, but got: %T""value13}else{iffcast14!=math.Truncfcast14{errors.Addstrings.Join[]string{ref""optional_integer""}""/""fmt.Sprintf""expected a whole number, but got: %f""fcast14}else{iffcast14>=9223372036854775808||fcast14<-9223372036854775808{errors.Addstrings.Join[]string{ref""optional_integer""}""/""fmt.Sprintf""expected the value to fit into int64, but got an overflow: %f""fcast14}else{target13=int64fcast14}}}target.OptionalInteger=&target13}iferrors.Full{return}value15ok15:=cast[""optional_map""]ifok15{cast16ok16:=value15.map[string]interface{}if!ok16{errors.Addstrings.Join[]string{ref""optional_map""}""/""fmt.Sprintf""expected a map[string]interface{}, but got: %T""value15}else{target16:=makemap[string]int64fork16:=rangecast16{fcast17ok17:=cast16[k16].float64if!ok17{errors.Addstrings.Join[]string{ref""optional_map""k16}""/""fmt.Sprintf""expected a float64, but got: %T""cast16[k16]}else{iffcast17!=math.Truncfcast17{errors.Addstrings.Join[]string{ref""optional_map""k16}""/""fmt.Sprintf""expected a whole number, but got: %f""fcast17}else{iffcast17>=9223372036854775808||fcast17<-9223372036854775808{errors.Addstrings.Join[]string{ref""optional_map""k16}""/""fmt.Sprintf""expected the value to fit into int64, but got an overflow: %f""fcast17}else{target16[k16]=int64fcast17}}}iferrors.Full{break}}target.OptionalMap=target16}}iferrors.Full{return}value18ok18:=cast[""optional_path""]ifok18{vartarget18stringcast19ok19:=value18.stringif!ok19{errors.Addstrings.Join[]string{ref""optional_path""}""/""fmt.Sprintf""expected a string, but got: %T""value18}else{target18=cast19}target.OptionalPath=&target18}iferrors.Full{return}value20ok20:=cast[""optional_string""]ifok20{vartarget20stringcast21ok21:=value20.stringif!ok21{errors.Addstrings.Join[]string{ref""optional_string""}""/""fmt.Sprintf""expected a string, but got: %T""value20}else{target20=cast21}target.OptionalString=&target20}iferrors.Full{return}value22ok22:=cast[""optional_time""]ifok22{vartarget22time.Timecast23ok23:=value22.stringif!ok23{errors.Addstrings.Join[]string{ref""optional_time""}""/""fmt.Sprintf""expected a string, but got: %T""value22}else{target23err23:=time.Parse""15:04:05""cast23iferr23!=nil{errors.Addstrings.Join[]string{ref""optional_time""}""/""fmt.Sprintf""expected layout 15:04:05, got: %s""cast23}else{target22=target23}}target.OptionalTime=&target22}iferrors.Full{return}value24ok24:=cast[""optional_time_zone""]ifok24{cast25ok25:=value24.stringif!ok25{errors.Addstrings.Join[]string{ref""optional_time_zone""}""/""fmt.Sprintf""expected a string, but got: %T""value24}else{target25err25:=time.LoadLocationcast25iferr25!=nil{errors.Addstrings.Join[]string{ref""optional_time_zone""}""/""fmt.Sprintf""failed to load location from %#v: %s""cast25err25.Error}else{target.OptionalTimeZone=target25}}}iferrors.Full{return}value26ok26:=cast[""optional_reference""]ifok26{cast27ok27:=value26.stringif!ok27{errors.Addstrings.Join[]string{ref""optional_reference""}""/""fmt.Sprintf""expected a string, but got: %T""value26}else{target27ok27:=target.Empties[cast27]if!ok27{errors.Addstrings.Join[]string{ref""optional_reference""}""/""fmt.Sprintf""reference to an instance of class Empty not found: %s""value26}else{target.OptionalReference=target27}}}iferrors.Full{return}value28ok28:=cast[""optional_embed""]ifok28{vartarget28SomeEmbedSomeEmbedFromJSONablevalue28strings.Join[]string{ref""optional_embed""}""/""&target28errorstarget.OptionalEmbed=&target28}iferrors.Full{return}return}")]
  [(s_ "funcEmptyToJSONableinstance*Emptytargetmap[string]interface{}{ifinstance==nil{panic""unexpected nil instance""}target=makemap[string]interface{}return}");
   (s_ "funcSomeEmbedToJSONableinstance*SomeEmbedtargetmap[string]interface{}{ifinstance==nil{panic""unexpected nil instance""}target=makemap[string]interface{}return}");
   (s_ "funcSomeGraphToJSONableinstance*SomeGraphtargetmap[string]interface{}errerror{ifinstance==nil{panic""unexpected nil instance""}target=makemap[string]interface{}deferfunc{iferr!=nil{target=nil}}ifinstance.OptionalArray!=nil{count0:=leninstance.OptionalArrayslice0:=instance.OptionalArraytarget0:=make[]interface{}count0fori0:=0i0<count0i0++{target0[i0]=slice0[i0]}target[""optional_array""]=target0}ifinstance.OptionalBoolean!=nil{target[""optional_boolean""]=*instance.OptionalBoolean}ifinstance.OptionalDate!=nil{target[""optional_date""]=*instance.OptionalDate.Format""2006-01-02""}ifinstance.OptionalDatetime!=nil{target[""optional_datetime""]=*instance.OptionalDatetime.Format""2006-01-02T15:04:05Z""}ifinstance.OptionalDuration!=nil{target[""optional_duration""]=durationToString*instance.OptionalDuration}ifinstance.OptionalFloat!=nil{target[""optional_float""]=*instance.OptionalFloat}ifinstance.OptionalInteger!=nil{target[""optional_integer""]=*instance.OptionalInteger}ifinstance.OptionalMap!=nil{target1:=makemap[string]interface{}map1:=instance.OptionalMapfork1v1:=rangemap1{target1[k1]=v1}target[""optional_map""]=target1}ifinstance.OptionalPath!=nil{target[""optional_path""]=*instance.OptionalPath}ifinstance.OptionalString!=nil{target[""optional_string""]=*instance.OptionalString}ifinstance.OptionalTime!=nil{target[""optional_time""]=*instance.OptionalTime.Format""15:04:05""}ifinstance.OptionalTimeZone!=nil{target[""optional_time_zone""]=instance.OptionalTimeZone.String}ifinstance.OptionalReference!=nil{target[""optional_reference""]=instance.OptionalReference.ID}ifinstance.OptionalEmbed!=nil{target[""optional_embed""]=SomeEmbedToJSONable&*instance.OptionalEmbed}ifleninstance.Empties>0{targetEmpties:=makemap[string]interface{}forid:=rangeinstance.Empties{emptyInstance:=instance.Empties[id]ifid!=emptyInstance.ID{err=fmt.Errorf""expected the instance of Empty to have the ID %s according to the registry, but got: %s""idemptyInstance.IDreturn}targetEmpties[id]=EmptyToJSONableemptyInstance}target[""empties""]=targetEmpties}return}")]
  [(s_ "typeSomeEmbedstruct{}");
   (s_ "typeEmptystruct{IDstring}");
   (s_ "typeSomeGraphstruct{Emptiesmap[string]*EmptyOptionalArray[]int64OptionalBoolean*boolOptionalDate*time.TimeOptionalDatetime*time.TimeOptionalDuration*time.DurationOptionalFloat*float64OptionalInteger*int64OptionalMapmap[string]int64OptionalPath*stringOptionalString*stringOptionalTime*time.TimeOptionalTimeZone*time.LocationOptionalReference*EmptyOptionalEmbed*SomeEmbed}")]
  []
  [([(s_ "value");
   (s_ "id");
   (s_ "ref");
   (s_ "target");
   (s_ "errors")], [(s_ "errors");
   (s_ "fmt");
   (s_ "id");
   (s_ "nil");
   (s_ "ok");
   (s_ "panic");
   (s_ "ref");
   (s_ "string");
   (s_ "target");
   (s_ "value")]);
   ([(s_ "value");
   (s_ "ref");
   (s_ "target");
   (s_ "errors")], [(s_ "errors");
   (s_ "fmt");
   (s_ "nil");
   (s_ "ok");
   (s_ "panic");
   (s_ "ref");
   (s_ "string");
   (s_ "target");
   (s_ "value")]);
   ([(s_ "value");
   (s_ "ref");
   (s_ "target");
   (s_ "errors")], [(s_ "Empty");
   (s_ "EmptyFromJSONable");
   (s_ "SomeEmbed");
   (s_ "SomeEmbedFromJSONable");
   (s_ "bool");
   (s_ "cast");
   (s_ "cast1");
   (s_ "cast10");
   (s_ "cast12");
   (s_ "cast16");
   (s_ "cast19");
   (s_ "cast21");
   (s_ "cast23");
   (s_ "cast25");
   (s_ "cast27");
   (s_ "cast4");
   (s_ "cast6");
   (s_ "cast8");
   (s_ "durationFromString");
   (s_ "emptiesMap");
   (s_ "emptiesOk");
   (s_ "emptiesRef");
   (s_ "emptiesValue");
   (s_ "err10");
   (s_ "err23");
   (s_ "err25");
   (s_ "err6");
   (s_ "err8");
   (s_ "errors");
   (s_ "fcast14");
   (s_ "fcast17");
   (s_ "fcast2");
   (s_ "float64");
   (s_ "fmt");
   (s_ "i1");
   (s_ "id");
   (s_ "int64");
   (s_ "k16");
   (s_ "len");
   (s_ "make");
   (s_ "math");
   (s_ "nil");
   (s_ "ok");
   (s_ "ok0");
   (s_ "ok1");
   (s_ "ok10");
   (s_ "ok11");
   (s_ "ok12");
   (s_ "ok13");
   (s_ "ok14");
   (s_ "ok15");
   (s_ "ok16");
   (s_ "ok17");
   (s_ "ok18");
   (s_ "ok19");
   (s_ "ok2");
   (s_ "ok20");
   (s_ "ok21");
   (s_ "ok22");
   (s_ "ok23");
   (s_ "ok24");
   (s_ "ok25");
   (s_ "ok26");
   (s_ "ok27");
   (s_ "ok28");
   (s_ "ok3");
   (s_ "ok4");
   (s_ "ok5");
   (s_ "ok6");
   (s_ "ok7");
   (s_ "ok8");
   (s_ "ok9");
   (s_ "panic");
   (s_ "ref");
   (s_ "strconv");
   (s_ "string");
   (s_ "strings");
   (s_ "target");
   (s_ "target1");
   (s_ "target10");
   (s_ "target11");
   (s_ "target13");
   (s_ "target16");
   (s_ "target18");
   (s_ "target20");
   (s_ "target22");
   (s_ "target23");
   (s_ "target25");
   (s_ "target27");
   (s_ "target28");
   (s_ "target3");
   (s_ "target5");
   (s_ "target6");
   (s_ "target7");
   (s_ "target8");
   (s_ "target9");
   (s_ "time");
   (s_ "value");
   (s_ "value0");
   (s_ "value11");
   (s_ "value13");
   (s_ "value15");
   (s_ "value18");
   (s_ "value20");
   (s_ "value22");
   (s_ "value24");
   (s_ "value26");
   (s_ "value28");
   (s_ "value3");
   (s_ "value5");
   (s_ "value7");
   (s_ "value9")])]
  [([(s_ "instance");
   (s_ "target")], [(s_ "instance");
   (s_ "make");
   (s_ "nil");
   (s_ "panic");
   (s_ "string");
   (s_ "target")]);
   ([(s_ "instance");
   (s_ "target")], [(s_ "instance");
   (s_ "make");
   (s_ "nil");
   (s_ "panic");
   (s_ "string");
   (s_ "target")]);
   ([(s_ "instance");
   (s_ "target");
   (s_ "err")], [(s_ "EmptyToJSONable");
   (s_ "SomeEmbedToJSONable");
   (s_ "count0");
   (s_ "durationToString");
   (s_ "emptyInstance");
   (s_ "err");
   (s_ "fmt");
   (s_ "i0");
   (s_ "id");
   (s_ "instance");
   (s_ "k1");
   (s_ "len");
   (s_ "make");
   (s_ "map1");
   (s_ "nil");
   (s_ "panic");
   (s_ "slice0");
   (s_ "string");
   (s_ "target");
   (s_ "target0");
   (s_ "target1");
   (s_ "targetEmpties");
   (s_ "v1")])]
  [(s_ "fmt");
   (s_ "math");
   (s_ "regexp");
   (s_ "strconv");
   (s_ "strings");
   (s_ "time")] [(s_ "fmt");
   (s_ "strings");
   (s_ "time")] [(s_ "time")] [(s_ "fmt")] [(s_ "fmt");
   (s_ "time")] [].

(** test_cases/general/primitive_type/boolean/go/test_generate *)
Definition go_general_primitive_type_boolean : go_source :=
  GoSource
  [(s_ "funcSomeGraphFromJSONablevalueinterface{}refstringtarget*SomeGrapherrors*Errors{iftarget==nil{panic""unexpected nil target""}iferrors==nil{panic""unexpected nil errors""}if!errors.Empty{panic""unexpected non-empty errors""}castok:=value.map[string]interface{}if!ok{errors.Addreffmt.Sprintf""expected a map[string]interface{}, but got: %T""valuereturn}value0ok0:=cast[""some_bool""]if!ok0{errors.Addref""property is missing: some_bool""}else{cast1ok1:=value0.boolif!ok1{errors.Addstrings.Join[]string{ref""some_bool""}""/""fmt.Sprintf""expected a bool, but got: %T""value0}else{target.SomeBool=cast1}}iferrors.Full{return}return}")]
  [(s_ "funcSomeGraphToJSONableinstance*SomeGraphtargetmap[string]interface{}errerror{ifinstance==nil{panic""unexpected nil instance""}target=makemap[string]interface{}deferfunc{iferr!=nil{target=nil}}target[""some_bool""]=instance.SomeBoolreturn}")]
  [(s_ "typeSomeGraphstruct{SomeBoolbool}")]
  []
  [([(s_ "value");
   (s_ "ref");
   (s_ "target");
   (s_ "errors")], [(s_ "bool");
   (s_ "cast");
   (s_ "cast1");
   (s_ "errors");
   (s_ "fmt");
   (s_ "nil");
   (s_ "ok");
   (s_ "ok0");
   (s_ "ok1");
   (s_ "panic");
   (s_ "ref");
   (s_ "string");
   (s_ "strings");
   (s_ "target");
   (s_ "value");
   (s_ "value0")])]
  [([(s_ "instance");
   (s_ "target");
   (s_ "err")], [(s_ "err");
   (s_ "instance");
   (s_ "make");
   (s_ "nil");
   (s_ "panic");
   (s_ "string");
   (s_ "target")])]
  [(s_ "fmt");
   (s_ "strings")] [] [] [] [] [].

(** test_cases/general/primitive_type/date/go/test_generate *)
Definition go_general_primitive_type_date : go_source :=
  GoSource
  [(s_ "funcSomeGraphFromJSONablevalueinterface{}refstringtarget*SomeGrapherrors*Errors{iftarget==nil{panic""unexpected nil target""}iferrors==nil{panic""unexpected nil errors""}if!errors.Empty{panic""unexpected non-empty errors""}castok:=value.map[string]interface{}if!ok{errors.Addreffmt.Sprintf""expected a map[string]interface{}, but got: %T""valuereturn}value0ok0:=cast[""some_date""]if!ok0{errors.Addref""property is missing: some_date""}else{cast1ok1:=value0.stringif!ok1{errors.Addstrings.Join[]string{ref""some_date""}""/""fmt.Sprintf""expected a string, but got: %T""value0}else{target1err1:=time.Parse""2006/01/02""cast1iferr1!=nil{errors.Addstrings.Join[]string{ref""some_date""}""/""fmt.Sprintf""expected layout 2006/01/02, got: %s""cast1}else{target.SomeDate=target1}}}iferrors.Full{return}value2ok2:=cast[""formatless_date""]if!ok2{errors.Addref""property is missing: formatless_date""}else{cast3ok3:=value2.stringif!ok3{errors.Addstrings.Join[]string{ref""formatless_date""}""/""fmt.Sprintf""expected a string, but got: %T""value2}else{target3err3:=time.Parse""2006-01-02""cast3iferr3!=nil{errors.Addstrings.Join[]string{ref""formatless_date""}""/""fmt.Sprintf""expected layout 2006-01-02, got: %s""cast3}else{target.FormatlessDate=target3}}}iferrors.Full{return}return}")]
  [(s_ "funcSomeGraphToJSONableinstance*SomeGraphtargetmap[string]interface{}errerror{ifinstance==nil{panic""unexpected nil instance""}target=makemap[string]interface{}deferfunc{iferr!=nil{target=nil}}target[""some_date""]=instance.SomeDate.Format""2006/01/02""target[""formatless_date""]=instance.FormatlessDate.Format""2006-01-02""return}")]
  [(s_ "typeSomeGraphstruct{SomeDatetime.TimeFormatlessDatetime.Time}")]
  []
  [([(s_ "value");
   (s_ "ref");
   (s_ "target");
   (s_ "errors")], [(s_ "cast");
   (s_ "cast1");
   (s_ "cast3");
   (s_ "err1");
   (s_ "err3");
   (s_ "errors");
   (s_ "fmt");
   (s_ "nil");
   (s_ "ok");
   (s_ "ok0");
   (s_ "ok1");
   (s_ "ok2");
   (s_ "ok3");
   (s_ "panic");
   (s_ "ref");
   (s_ "string");
   (s_ "strings");
   (s_ "target");
   (s_ "target1");
   (s_ "target3");
   (s_ "time");
   (s_ "value");
   (s_ "value0");
   (s_ "value2")])]
  [([(s_ "instance");
   (s_ "target");
   (s_ "err")], [(s_ "err");
   (s_ "instance");
   (s_ "make");
   (s_ "nil");
   (s_ "panic");
   (s_ "string");
   (s_ "target")])]
  [(s_ "fmt");
   (s_ "strings");
   (s_ "time")] [] [(s_ "time")] [] [] [].

(** test_cases/general/primitive_type/datetime/go/test_generate *)
Definition go_general_primitive_type_datetime : go_source :=
  GoSource
  [(s_ "funcSomeGraphFromJSONablevalueinterface{}refstringtarget*SomeGrapherrors*Errors{iftarget==nil{panic""unexpected nil target""}iferrors==nil{panic""unexpected nil errors""}if!errors.Empty{panic""unexpected non-empty errors""}castok:=value.map[string]interface{}if!ok{errors.Addreffmt.Sprintf""expected a map[string]interface{}, but got: %T""valuereturn}value0ok0:=cast[""some_datetime""]if!ok0{errors.Addref""property is missing: some_datetime""}else{cast1ok1:=value0.stringif!ok1{errors.Addstrings.Join[]string{ref""some_datetime""}""/""fmt.Sprintf""expected a string, but got: %T""value0}else{target1err1:=time.Parse""2006/01/02 15-04-05Z""cast1iferr1!=nil{errors.Addstrings.Join[]string{ref""some_datetime""}""/""fmt.Sprintf""expected layout 2006/01/02 15-04-05Z, got: %s""cast1}else{target.SomeDatetime=target1}}}iferrors.Full{return}value2ok2:=cast[""formatless_datetime""]if!ok2{errors.Addref""property is missing: formatless_datetime""}else{cast3ok3:=value2.stringif!ok3{errors.Addstrings.Join[]string{ref""formatless_datetime""}""/""fmt.Sprintf""expected a string, but got: %T""value2}else{target3err3:=time.Parse""2006-01-02T15:04:05Z""cast3iferr3!=nil{errors.Addstrings.Join[]string{ref""formatless_datetime""}""/""fmt.Sprintf""expected layout 2006-01-02T15:04:05Z, got: %s""cast3}else{target.FormatlessDatetime=target3}}}iferrors.Full{return}return}")]
  [(s_ "funcSomeGraphToJSONableinstance*SomeGraphtargetmap[string]interface{}errerror{ifinstance==nil{panic""unexpected nil instance""}target=makemap[string]interface{}deferfunc{iferr!=nil{target=nil}}target[""some_datetime""]=instance.SomeDatetime.Format""2006/01/02 15-04-05Z""target[""formatless_datetime""]=instance.FormatlessDatetime.Format""2006-01-02T15:04:05Z""return}")]
  [(s_ "typeSomeGraphstruct{SomeDatetimetime.TimeFormatlessDatetimetime.Time}")]
  []
  [([(s_ "value");
   (s_ "ref");
   (s_ "target");
   (s_ "errors")], [(s_ "cast");
   (s_ "cast1");
   (s_ "cast3");
   (s_ "err1");
   (s_ "err3");
   (s_ "errors");
   (s_ "fmt");
   (s_ "nil");
   (s_ "ok");
   (s_ "ok0");
   (s_ "ok1");
   (s_ "ok2");
   (s_ "ok3");
   (s_ "panic");
   (s_ "ref");
   (s_ "string");
   (s_ "strings");
   (s_ "target");
   (s_ "target1");
   (s_ "target3");
   (s_ "time");
   (s_ "value");
   (s_ "value0");
   (s_ "value2")])]
  [([(s_ "instance");
   (s_ "target");
   (s_ "err")], [(s_ "err");
   (s_ "instance");
   (s_ "make");
   (s_ "nil");
   (s_ "panic");
   (s_ "string");
   (s_ "target")])]
  [(s_ "fmt");
   (s_ "strings");
   (s_ "time")] [] [(s_ "time")] [] [] [].

(** test_cases/general/primitive_type/duration/go/test_generate *)
Definition go_general_primitive_type_duration : go_source :=
  GoSource
  [(s_ "funcSomeGraphFromJSONablevalueinterface{}refstringtarget*SomeGrapherrors*Errors{iftarget==nil{panic""unexpected nil target""}iferrors==nil{panic""unexpected nil errors""}if!errors.Empty{panic""unexpected non-empty errors""}castok:=value.map[string]interface{}if!ok{errors.Addreffmt.Sprintf""expected a map[string]interface{}, but got: %T""valuereturn}value0ok0:=cast[""some_duration""]if!ok0{errors.Addref""property is missing: some_duration""}else{cast1ok1:=value0.stringif!ok1{errors.Addstrings.Join[]string{ref""some_duration""}""/""fmt.Sprintf""expected a string, but got: %T""value0}else{target1err1:=durationFromStringcast1iferr1!=nil{errors.Addstrings.Join[]string{ref""some_duration""}""/""fmt.Sprintf""failed to parse duration from %#v: %s""cast1err1.Error}else{target.SomeDuration=target1}}}iferrors.Full{return}return}")]
  [(s_ "funcSomeGraphToJSONableinstance*SomeGraphtargetmap[string]interface{}errerror{ifinstance==nil{panic""unexpected nil instance""}target=makemap[string]interface{}deferfunc{iferr!=nil{target=nil}}target[""some_duration""]=durationToStringinstance.SomeDurationreturn}")]
  [(s_ "typeSomeGraphstruct{SomeDurationtime.Duration}")]
  []
  [([(s_ "value");
   (s_ "ref");
   (s_ "target");
   (s_ "errors")], [(s_ "cast");
   (s_ "cast1");
   (s_ "durationFromString");
   (s_ "err1");
   (s_ "errors");
   (s_ "fmt");
   (s_ "nil");
   (s_ "ok");
   (s_ "ok0");
   (s_ "ok1");
   (s_ "panic");
   (s_ "ref");
   (s_ "string");
   (s_ "strings");
   (s_ "target");
   (s_ "target1");
   (s_ "value");
   (s_ "value0")])]
  [([(s_ "instance");
   (s_ "target");
   (s_ "err")], [(s_ "durationToString");
   (s_ "err");
   (s_ "instance");
   (s_ "make");
   (s_ "nil");
   (s_ "panic");
   (s_ "string");
   (s_ "target")])]
  [(s_ "fmt");
   (s_ "math");
   (s_ "regexp");
   (s_ "strconv");
   (s_ "strings");
   (s_ "time")] [(s_ "fmt");
   (s_ "strings");
   (s_ "time")] [(s_ "time")] [(s_ "fmt")] [(s_ "fmt");
   (s_ "time")] [].

(** test_cases/general/primitive_type/float/go/test_generate *)
Definition go_general_primitive_type_float : go_source :=
  GoSource
  [(s_ "funcSomeGraphFromJSONablevalueinterface{}refstringtarget*SomeGrapherrors*Errors{iftarget==nil{panic""unexpected nil target""}iferrors==nil{panic""unexpected nil errors""}if!errors.Empty{panic""unexpected non-empty errors""}castok:=value.map[string]interface{}if!ok{errors.Addreffmt.Sprintf""expected a map[string]interface{}, but got: %T""valuereturn}value0ok0:=cast[""some_float_gt_0_lt_100""]if!ok0{errors.Addref""property is missing: some_float_gt_0_lt_100""}else{cast1ok1:=value0.float64if!ok1{errors.Addstrings.Join[]string{ref""some_float_gt_0_lt_100""}""/""fmt.Sprintf""expected a float64, but got: %T""value0}else{if!cast1>0{errors.Addstrings.Join[]string{ref""some_float_gt_0_lt_100""}""/""fmt.Sprintf""expected > 0, but got: %f""cast1}else{if!cast1<100{errors.Addstrings.Join[]string{ref""some_float_gt_0_lt_100""}""/""fmt.Sprintf""expected < 100, but got: %f""cast1}else{target.SomeFloatGt0Lt100=cast1}}}}iferrors.Full{return}value2ok2:=cast[""some_float_ge_0_le_100""]if!ok2{errors.Addref""property is missing: some_float_ge_0_le_100""}else{cast3ok3:=value2.float64if!ok3{errors.Addstrings.Join[]string{ref""some_float_ge_0_le_100""}""/""fmt.Sprintf""expected a float64, but got: %T""value2}else{if!cast3>=0{errors.Addstrings.Join[]string{ref""some_float_ge_0_le_100""}""/""fmt.Sprintf""expected >= 0, but got: %f""cast3}else{if!cast3<=100{errors.Addstrings.Join[]string{ref""some_float_ge_0_le_100""}""/""fmt.Sprintf""expected <= 100, but got: %f""cast3}else{target.SomeFloatGe0Le100=cast3}}}}iferrors.Full{return}value4ok4:=cast[""unconstrained_float""]if!ok4{errors.Addref""property is missing: unconstrained_float""}else{cast5ok5:=value4.float64if!ok5{errors.Addstrings.Join[]string{ref""unconstrained_float""}""/""fmt.Sprintf""expected a float64, but got: %T""value4}else{target.UnconstrainedFloat=cast5}}iferrors.Full{return}return}")]
  [(s_ "funcSomeGraphToJSONableinstance*SomeGraphtargetmap[string]interface{}errerror{ifinstance==nil{panic""unexpected nil instance""}target=makemap[string]interface{}deferfunc{iferr!=nil{target=nil}}target[""some_float_gt_0_lt_100""]=instance.SomeFloatGt0Lt100target[""some_float_ge_0_le_100""]=instance.SomeFloatGe0Le100target[""unconstrained_float""]=instance.UnconstrainedFloatreturn}")]
  [(s_ "typeSomeGraphstruct{SomeFloatGt0Lt100float64SomeFloatGe0Le100float64UnconstrainedFloatfloat64}")]
  []
  [([(s_ "value");
   (s_ "ref");
   (s_ "target");
   (s_ "errors")], [(s_ "cast");
   (s_ "cast1");
   (s_ "cast3");
   (s_ "cast5");
   (s_ "errors");
   (s_ "float64");
   (s_ "fmt");
   (s_ "nil");
   (s_ "ok");
   (s_ "ok0");
   (s_ "ok1");
   (s_ "ok2");
   (s_ "ok3");
   (s_ "ok4");
   (s_ "ok5");
   (s_ "panic");
   (s_ "ref");
   (s_ "string");
   (s_ "strings");
   (s_ "target");
   (s_ "value");
   (s_ "value0");
   (s_ "value2");
   (s_ "value4")])]
  [([(s_ "instance");
   (s_ "target");
   (s_ "err")], [(s_ "err");
   (s_ "instance");
   (s_ "make");
   (s_ "nil");
   (s_ "panic");
   (s_ "string");
   (s_ "target")])]
  [(s_ "fmt");
   (s_ "strings")] [] [] [] [] [].

(** test_cases/general/primitive_type/integer/go/test_generate *)
Definition go_general_primitive_type_integer : go_source :=
  GoSource
  [(s_ "funcSomeGraphFromJSONablevalueinterface{}refstringtarget*SomeGrapherrors*Errors{iftarget==nil{panic""unexpected nil target""}iferrors==nil{panic""unexpected nil errors""}if!errors.Empty{panic""unexpected non-empty errors""}castok:=value.map[string]interface{}if!ok{errors.Addreffmt.Sprintf""expected a map[string]interface{}, but got: %T""valuereturn}value0ok0:=cast[""some_int_gt_0_lt_100""]if!ok0{errors.Addref""property is missing: some_int_gt_0_lt_100""}else{fcast1ok1:=value0.float64if!ok1{errors.Addstrings.Join[]string{ref""some_int_gt_0_lt_100""}""/""fmt.Sprintf""expected a float64, but got: %T""value0}else{iffcast1!=math.Truncfcast1{errors.Addstrings.Join[]string{ref""some_int_gt_0_lt_100""}""/""fmt.Sprintf""expected a whole number, but got: %f""fcast1}else{iffcast1>=9223372036854775808||fcast1<-9223372036854775808{errors.Addstrings.Join[]string{ref""some_int_gt_0_lt_100""}""/""fmt.Sprintf""expected the value to fit into int64, but got an overflow: %f""fcast1}else{cast1:=int64fcast1if!cast1>0{errors.Addstrings.Join[]string{ref""some_int_gt_0_lt_100""}""/""fmt.Sprintf""expected > 0, but got: %d""cast1}else{if!cast1<100{errors.Addstrings.Join[]string{ref""some_int_gt_0_lt_100""}""/""fmt.Sprintf""expected < 100, but got: %d""cast1}else{target.SomeIntGt0Lt100=cast1}}}}}}iferrors.Full{return}value2ok2:=cast[""some_int_ge_0_le_100""]if!ok2{errors.Addref""property is missing: some_int_ge_0_le_100""}else{fcast3ok3:=value2.float64if!ok3{errors.Addstrings.Join[]string{ref""some_int_ge_0_le_100""}""/""fmt.Sprintf""expected a float64, but got: %T""value2}else{iffcast3!=math.Truncfcast3{errors.Addstrings.Join[]string{ref""some_int_ge_0_le_100""}""/""fmt.Sprintf""expected a whole number, but got: %f""fcast3}else{iffcast3>=9223372036854775808||fcast3<-9223372036854775808{errors.Addstrings.Join[]string{ref""some_int_ge_0_le_100""}""/""fmt.Sprintf""expected the value to fit into int64, but got an overflow: %f""fcast3}else{cast3:=int64fcast3if!cast3>=0{errors.Addstrings.Join[]string{ref""some_int_ge_0_le_100""}""/""fmt.Sprintf""expected >= 0, but got: %d""cast3}else{if!cast3<=100{errors.Addstrings.Join[]string{ref""some_int_ge_0_le_100""}""/""fmt.Sprintf""expected <= 100, but got: %d""cast3}else{target.SomeIntGe0Le100=cast3}}}}}}iferrors.Full{return}value4ok4:=cast[""unconstrained_int""]if!ok4{errors.Addref""property is missing: unconstrained_int""}else{fcast5ok5:=value4.float64if!ok5{errors.Addstrings.Join[]string{ref""unconstrained_int""}""/""fmt.Sprintf""expected a float64, but got: %T""value4}else{iffcast5!=math.Truncfcast5{errors.Addstrings.Join[]string{ref""unconstrained_int""}""/""fmt.Sprintf""expected a whole number, but got: %f""fcast5}else{iffcast5>=9223372036854775808||fcast5<-9223372036854775808{errors.Addstrings.Join[]string{ref""unconstrained_int""}""/""fmt.Sprintf""expected the value to fit into int64, but got an overflow: %f""fcast5}else{target.UnconstrainedInt=int64fcast5}}}}iferrors.Full{return}return}")]
  [(s_ "funcSomeGraphToJSONableinstance*SomeGraphtargetmap[string]interface{}errerror{ifinstance==nil{panic""unexpected nil instance""}target=makemap[string]interface{}deferfunc{iferr!=nil{target=nil}}target[""some_int_gt_0_lt_100""]=instance.SomeIntGt0Lt100target[""some_int_ge_0_le_100""]=instance.SomeIntGe0Le100target[""unconstrained_int""]=instance.UnconstrainedIntreturn}")]
  [(s_ "typeSomeGraphstruct{SomeIntGt0Lt100int64SomeIntGe0Le100int64UnconstrainedIntint64}")]
  []
  [([(s_ "value");
   (s_ "ref");
   (s_ "target");
   (s_ "errors")], [(s_ "cast");
   (s_ "cast1");
   (s_ "cast3");
   (s_ "errors");
   (s_ "fcast1");
   (s_ "fcast3");
   (s_ "fcast5");
   (s_ "float64");
   (s_ "fmt");
   (s_ "int64");
   (s_ "math");
   (s_ "nil");
   (s_ "ok");
   (s_ "ok0");
   (s_ "ok1");
   (s_ "ok2");
   (s_ "ok3");
   (s_ "ok4");
   (s_ "ok5");
   (s_ "panic");
   (s_ "ref");
   (s_ "string");
   (s_ "strings");
   (s_ "target");
   (s_ "value");
   (s_ "value0");
   (s_ "value2");
   (s_ "value4")])]
  [([(s_ "instance");
   (s_ "target");
   (s_ "err")], [(s_ "err");
   (s_ "instance");
   (s_ "make");
   (s_ "nil");
   (s_ "panic");
   (s_ "string");
   (s_ "target")])]
  [(s_ "fmt");
   (s_ "math");
   (s_ "strings")] [] [] [] [] [].

(** test_cases/general/primitive_type/path/go/test_generate *)
Definition go_general_primitive_type_path : go_source :=
  GoSource
  [(s_ "funcSomeGraphFromJSONablevalueinterface{}refstringtarget*SomeGrapherrors*Errors{iftarget==nil{panic""unexpected nil target""}iferrors==nil{panic""unexpected nil errors""}if!errors.Empty{panic""unexpected non-empty errors""}castok:=value.map[string]interface{}if!ok{errors.Addreffmt.Sprintf""expected a map[string]interface{}, but got: %T""valuereturn}value0ok0:=cast[""some_path""]if!ok0{errors.Addref""property is missing: some_path""}else{cast1ok1:=value0.stringif!ok1{errors.Addstrings.Join[]string{ref""some_path""}""/""fmt.Sprintf""expected a string, but got: %T""value0}else{if!pattern0.MatchStringcast1{errors.Addstrings.Join[]string{ref""some_path""}""/""fmt.Sprintf""expected to match ^/[a-zA-Z]+-[0-9]+$, but got: %s""cast1}else{target.SomePath=cast1}}}iferrors.Full{return}value2ok2:=cast[""unconstrained_path""]if!ok2{errors.Addref""property is missing: unconstrained_path""}else{cast3ok3:=value2.stringif!ok3{errors.Addstrings.Join[]string{ref""unconstrained_path""}""/""fmt.Sprintf""expected a string, but got: %T""value2}else{target.UnconstrainedPath=cast3}}iferrors.Full{return}return}")]
  [(s_ "funcSomeGraphToJSONableinstance*SomeGraphtargetmap[string]interface{}errerror{ifinstance==nil{panic""unexpected nil instance""}target=makemap[string]interface{}deferfunc{iferr!=nil{target=nil}}target[""some_path""]=instance.SomePathtarget[""unconstrained_path""]=instance.UnconstrainedPathreturn}")]
  [(s_ "typeSomeGraphstruct{SomePathstringUnconstrainedPathstring}")]
  [(s_ "varpattern0=regexp.MustCompile^/[a-zA-Z]+-[0-9]+$")]
  [([(s_ "value");
   (s_ "ref");
   (s_ "target");
   (s_ "errors")], [(s_ "cast");
   (s_ "cast1");
   (s_ "cast3");
   (s_ "errors");
   (s_ "fmt");
   (s_ "nil");
   (s_ "ok");
   (s_ "ok0");
   (s_ "ok1");
   (s_ "ok2");
   (s_ "ok3");
   (s_ "panic");
   (s_ "pattern0");
   (s_ "ref");
   (s_ "string");
   (s_ "strings");
   (s_ "target");
   (s_ "value");
   (s_ "value0");
   (s_ "value2")])]
  [([(s_ "instance");
   (s_ "target");
   (s_ "err")], [(s_ "err");
   (s_ "instance");
   (s_ "make");
   (s_ "nil");
   (s_ "panic");
   (s_ "string");
   (s_ "target")])]
  [(s_ "fmt");
   (s_ "regexp");
   (s_ "strings")] [] [] [] [] [].

(** test_cases/general/primitive_type/string/go/test_generate *)
Definition go_general_primitive_type_string : go_source :=
  GoSource
  [(s_ "funcSomeGraphFromJSONablevalueinterface{}refstringtarget*SomeGrapherrors*Errors{iftarget==nil{panic""unexpected nil target""}iferrors==nil{panic""unexpected nil errors""}if!errors.Empty{panic""unexpected non-empty errors""}castok:=value.map[string]interface{}if!ok{errors.Addreffmt.Sprintf""expected a map[string]interface{}, but got: %T""valuereturn}value0ok0:=cast[""some_str""]if!ok0{errors.Addref""property is missing: some_str""}else{cast1ok1:=value0.stringif!ok1{errors.Addstrings.Join[]string{ref""some_str""}""/""fmt.Sprintf""expected a string, but got: %T""value0}else{if!pattern0.MatchStringcast1{errors.Addstrings.Join[]string{ref""some_str""}""/""fmt.Sprintf""expected to match ^[a-zA-Z]*$, but got: %s""cast1}else{target.SomeStr=cast1}}}iferrors.Full{return}value2ok2:=cast[""unconstrained_str""]if!ok2{errors.Addref""property is missing: unconstrained_str""}else{cast3ok3:=value2.stringif!ok3{errors.Addstrings.Join[]string{ref""unconstrained_str""}""/""fmt.Sprintf""expected a string, but got: %T""value2}else{target.UnconstrainedStr=cast3}}iferrors.Full{return}return}")]
  [(s_ "funcSomeGraphToJSONableinstance*SomeGraphtargetmap[string]interface{}errerror{ifinstance==nil{panic""unexpected nil instance""}target=makemap[string]interface{}deferfunc{iferr!=nil{target=nil}}target[""some_str""]=instance.SomeStrtarget[""unconstrained_str""]=instance.UnconstrainedStrreturn}")]
  [(s_ "typeSomeGraphstruct{SomeStrstringUnconstrainedStrstring}")]
  [(s_ "varpattern0=regexp.MustCompile^[a-zA-Z]*$")]
  [([(s_ "value");
   (s_ "ref");
   (s_ "target");
   (s_ "errors")], [(s_ "cast");
   (s_ "cast1");
   (s_ "cast3");
   (s_ "errors");
   (s_ "fmt");
   (s_ "nil");
   (s_ "ok");
   (s_ "ok0");
   (s_ "ok1");
   (s_ "ok2");
   (s_ "ok3");
   (s_ "panic");
   (s_ "pattern0");
   (s_ "ref");
   (s_ "string");
   (s_ "strings");
   (s_ "target");
   (s_ "value");
   (s_ "value0");
   (s_ "value2")])]
  [([(s_ "instance");
   (s_ "target");
   (s_ "err")], [(s_ "err");
   (s_ "instance");
   (s_ "make");
   (s_ "nil");
   (s_ "panic");
   (s_ "string");
   (s_ "target")])]
  [(s_ "fmt");
   (s_ "regexp");
   (s_ "strings")] [] [] [] [] [].

(** test_cases/general/primitive_type/time/go/test_generate *)
Definition go_general_primitive_type_time : go_source :=
  GoSource
  [(s_ "funcSomeGraphFromJSONablevalueinterface{}refstringtarget*SomeGrapherrors*Errors{iftarget==nil{panic""unexpected nil target""}iferrors==nil{panic""unexpected nil errors""}if!errors.Empty{panic""unexpected non-empty errors""}castok:=value.map[string]interface{}if!ok{errors.Addreffmt.Sprintf""expected a map[string]interface{}, but got: %T""valuereturn}value0ok0:=cast[""some_time""]if!ok0{errors.Addref""property is missing: some_time""}else{cast1ok1:=value0.stringif!ok1{errors.Addstrings.Join[]string{ref""some_time""}""/""fmt.Sprintf""expected a string, but got: %T""value0}else{target1err1:=time.Parse""15-04-05""cast1iferr1!=nil{errors.Addstrings.Join[]string{ref""some_time""}""/""fmt.Sprintf""expected layout 15-04-05, got: %s""cast1}else{target.SomeTime=target1}}}iferrors.Full{return}value2ok2:=cast[""formatless_time""]if!ok2{errors.Addref""property is missing: formatless_time""}else{cast3ok3:=value2.stringif!ok3{errors.Addstrings.Join[]string{ref""formatless_time""}""/""fmt.Sprintf""expected a string, but got: %T""value2}else{target3err3:=time.Parse""15:04:05""cast3iferr3!=nil{errors.Addstrings.Join[]string{ref""formatless_time""}""/""fmt.Sprintf""expected layout 15:04:05, got: %s""cast3}else{target.FormatlessTime=target3}}}iferrors.Full{return}return}")]
  [(s_ "funcSomeGraphToJSONableinstance*SomeGraphtargetmap[string]interface{}errerror{ifinstance==nil{panic""unexpected nil instance""}target=makemap[string]interface{}deferfunc{iferr!=nil{target=nil}}target[""some_time""]=instance.SomeTime.Format""15-04-05""target[""formatless_time""]=instance.FormatlessTime.Format""15:04:05""return}")]
  [(s_ "typeSomeGraphstruct{SomeTimetime.TimeFormatlessTimetime.Time}")]
  []
  [([(s_ "value");
   (s_ "ref");
   (s_ "target");
   (s_ "errors")], [(s_ "cast");
   (s_ "cast1");
   (s_ "cast3");
   (s_ "err1");
   (s_ "err3");
   (s_ "errors");
   (s_ "fmt");
   (s_ "nil");
   (s_ "ok");
   (s_ "ok0");
   (s_ "ok1");
   (s_ "ok2");
   (s_ "ok3");
   (s_ "panic");
   (s_ "ref");
   (s_ "string");
   (s_ "strings");
   (s_ "target");
   (s_ "target1");
   (s_ "target3");
   (s_ "time");
   (s_ "value");
   (s_ "value0");
   (s_ "value2")])]
  [([(s_ "instance");
   (s_ "target");
   (s_ "err")], [(s_ "err");
   (s_ "instance");
   (s_ "make");
   (s_ "nil");
   (s_ "panic");
   (s_ "string");
   (s_ "target")])]
  [(s_ "fmt");
   (s_ "strings");
   (s_ "time")] [] [(s_ "time")] [] [] [].

(** test_cases/general/primitive_type/time_zone/go/test_generate *)
Definition go_general_primitive_type_time_zone : go_source :=
  GoSource
  [(s_ "funcSomeGraphFromJSONablevalueinterface{}refstringtarget*SomeGrapherrors*Errors{iftarget==nil{panic""unexpected nil target""}iferrors==nil{panic""unexpected nil errors""}if!errors.Empty{panic""unexpected non-empty errors""}castok:=value.map[string]interface{}if!ok{errors.Addreffmt.Sprintf""expected a map[string]interface{}, but got: %T""valuereturn}value0ok0:=cast[""some_time_zone""]if!ok0{errors.Addref""property is missing: some_time_zone""}else{cast1ok1:=value0.stringif!ok1{errors.Addstrings.Join[]string{ref""some_time_zone""}""/""fmt.Sprintf""expected a string, but got: %T""value0}else{target1err1:=time.LoadLocationcast1iferr1!=nil{errors.Addstrings.Join[]string{ref""some_time_zone""}""/""fmt.Sprintf""failed to load location from %#v: %s""cast1err1.Error}else{target.SomeTimeZone=target1}}}iferrors.Full{return}return}")]
  [(s_ "funcSomeGraphToJSONableinstance*SomeGraphtargetmap[string]interface{}errerror{ifinstance==nil{panic""unexpected nil instance""}target=makemap[string]interface{}deferfunc{iferr!=nil{target=nil}}target[""some_time_zone""]=instance.SomeTimeZone.Stringreturn}")]
  [(s_ "typeSomeGraphstruct{SomeTimeZone*time.Location}")]
  []
  [([(s_ "value");
   (s_ "ref");
   (s_ "target");
   (s_ "errors")], [(s_ "cast");
   (s_ "cast1");
   (s_ "err1");
   (s_ "errors");
   (s_ "fmt");
   (s_ "nil");
   (s_ "ok");
   (s_ "ok0");
   (s_ "ok1");
   (s_ "panic");
   (s_ "ref");
   (s_ "string");
   (s_ "strings");
   (s_ "target");
   (s_ "target1");
   (s_ "time");
   (s_ "value");
   (s_ "value0")])]
  [([(s_ "instance");
   (s_ "target");
   (s_ "err")], [(s_ "err");
   (s_ "instance");
   (s_ "make");
   (s_ "nil");
   (s_ "panic");
   (s_ "string");
   (s_ "target")])]
  [(s_ "fmt");
   (s_ "strings");
   (s_ "time")] [] [(s_ "time")] [] [] [].

(** test_cases/go/primitive_types/float/go/test_generate *)
Definition go_go_primitive_types_float : go_source :=
  GoSource
  [(s_ "funcSomeGraphFromJSONablevalueinterface{}refstringtarget*SomeGrapherrors*Errors{iftarget==nil{panic""unexpected nil target""}iferrors==nil{panic""unexpected nil errors""}if!errors.Empty{panic""unexpected non-empty errors""}castok:=value.map[string]interface{}if!ok{errors.Addreffmt.Sprintf""expected a map[string]interface{}, but got: %T""valuereturn}value0ok0:=cast[""some_float""]if!ok0{errors.Addref""property is missing: some_float""}else{cast1ok1:=value0.float64if!ok1{errors.Addstrings.Join[]string{ref""some_float""}""/""fmt.Sprintf""expected a float64, but got: %T""value0}else{target.SomeFloat=cast1}}iferrors.Full{return}return}")]
  [(s_ "funcSomeGraphToJSONableinstance*SomeGraphtargetmap[string]interface{}errerror{ifinstance==nil{panic""unexpected nil instance""}target=makemap[string]interface{}deferfunc{iferr!=nil{target=nil}}target[""some_float""]=instance.SomeFloatreturn}")]
  [(s_ "typeSomeGraphstruct{SomeFloatfloat64}")]
  []
  [([(s_ "value");
   (s_ "ref");
   (s_ "target");
   (s_ "errors")], [(s_ "cast");
   (s_ "cast1");
   (s_ "errors");
   (s_ "float64");
   (s_ "fmt");
   (s_ "nil");
   (s_ "ok");
   (s_ "ok0");
   (s_ "ok1");
   (s_ "panic");
   (s_ "ref");
   (s_ "string");
   (s_ "strings");
   (s_ "target");
   (s_ "value");
   (s_ "value0")])]
  [([(s_ "instance");
   (s_ "target");
   (s_ "err")], [(s_ "err");
   (s_ "instance");
   (s_ "make");
   (s_ "nil");
   (s_ "panic");
   (s_ "string");
   (s_ "target")])]
  [(s_ "fmt");
   (s_ "strings")] [] [] [] [] [].

(** test_cases/go/primitive_types/integer/go/test_generate *)
Definition go_go_primitive_types_integer : go_source :=
  GoSource
  [(s_ "funcSomeGraphFromJSONablevalueinterface{}refstringtarget*SomeGrapherrors*Errors{iftarget==nil{panic""unexpected nil target""}iferrors==nil{panic""unexpected nil errors""}if!errors.Empty{panic""unexpected non-empty errors""}castok:=value.map[string]interface{}if!ok{errors.Addreffmt.Sprintf""expected a map[string]interface{}, but got: %T""valuereturn}value0ok0:=cast[""some_int""]if!ok0{errors.Addref""property is missing: some_int""}else{fcast1ok1:=value0.float64if!ok1{errors.Addstrings.Join[]string{ref""some_int""}""/""fmt.Sprintf""expected a float64, but got: %T""value0}else{iffcast1!=math.Truncfcast1{errors.Addstrings.Join[]string{ref""some_int""}""/""fmt.Sprintf""expected a whole number, but got: %f""fcast1}else{iffcast1>=9223372036854775808||fcast1<-9223372036854775808{errors.Addstrings.Join[]string{ref""some_int""}""/""fmt.Sprintf""expected the value to fit into int64, but got an overflow: %f""fcast1}else{target.SomeInt=int64fcast1}}}}iferrors.Full{return}return}")]
  [(s_ "funcSomeGraphToJSONableinstance*SomeGraphtargetmap[string]interface{}errerror{ifinstance==nil{panic""unexpected nil instance""}target=makemap[string]interface{}deferfunc{iferr!=nil{target=nil}}target[""some_int""]=instance.SomeIntreturn}")]
  [(s_ "typeSomeGraphstruct{SomeIntint64}")]
  []
  [([(s_ "value");
   (s_ "ref");
   (s_ "target");
   (s_ "errors")], [(s_ "cast");
   (s_ "errors");
   (s_ "fcast1");
   (s_ "float64");
   (s_ "fmt");
   (s_ "int64");
   (s_ "math");
   (s_ "nil");
   (s_ "ok");
   (s_ "ok0");
   (s_ "ok1");
   (s_ "panic");
   (s_ "ref");
   (s_ "string");
   (s_ "strings");
   (s_ "target");
   (s_ "value");
   (s_ "value0")])]
  [([(s_ "instance");
   (s_ "target");
   (s_ "err")], [(s_ "err");
   (s_ "instance");
   (s_ "make");
   (s_ "nil");
   (s_ "panic");
   (s_ "string");
   (s_ "target")])]
  [(s_ "fmt");
   (s_ "math");
   (s_ "strings")] [] [] [] [] [].

Definition go_sources : list (jval * go_source) := [
(schema_docs_schema_introductory_example, go_docs_schema_introductory_example);
(schema_general_array_fails_invalid_types, go_general_array_fails_invalid_types);
(schema_general_array_maximum_size, go_general_array_maximum_size);
(schema_general_array_minimum_size, go_general_array_minimum_size);
(schema_general_array_of_array, go_general_array_of_array);
(schema_general_array_of_boolean, go_general_array_of_boolean);
(schema_general_array_of_class_ref, go_general_array_of_class_ref);
(schema_general_array_of_date, go_general_array_of_date);
(schema_general_array_of_datetime, go_general_array_of_datetime);
(schema_general_array_of_duration, go_general_array_of_duration);
(schema_general_array_of_embed, go_general_array_of_embed);
(schema_general_array_of_float, go_general_array_of_float);
(schema_general_array_of_integer, go_general_array_of_integer);
(schema_general_array_of_map, go_general_array_of_map);
(schema_general_array_of_path, go_general_array_of_path);
(schema_general_array_of_string, go_general_array_of_string);
(schema_general_array_of_time, go_general_array_of_time);
(schema_general_array_of_time_zone, go_general_array_of_time_zone);
(schema_general_class, go_general_class);
(schema_general_class_ref_in_embed, go_general_class_ref_in_embed);
(schema_general_embed, go_general_embed);
(schema_general_forward_declaration, go_general_forward_declaration);
(schema_general_json_property, go_general_json_property);
(schema_general_map_invalid_type, go_general_map_invalid_type);
(schema_general_map_of_array, go_general_map_of_array);
(schema_general_map_of_boolean, go_general_map_of_boolean);
(schema_general_map_of_class_ref, go_general_map_of_class_ref);
(schema_general_map_of_date, go_general_map_of_date);
(schema_general_map_of_datetime, go_general_map_of_datetime);
(schema_general_map_of_duration, go_general_map_of_duration);
(schema_general_map_of_embed, go_general_map_of_embed);
(schema_general_map_of_float, go_general_map_of_float);
(schema_general_map_of_integer, go_general_map_of_integer);
(schema_general_map_of_map, go_general_map_of_map);
(schema_general_map_of_path, go_general_map_of_path);
(schema_general_map_of_string, go_general_map_of_string);
(schema_general_map_of_time_zone, go_general_map_of_time_zone);
(schema_general_optional_in_class, go_general_optional_in_class);
(schema_general_optional_in_embed, go_general_optional_in_embed);
(schema_general_optional_in_graph, go_general_optional_in_graph);
(schema_general_primitive_type_boolean, go_general_primitive_type_boolean);
(schema_general_primitive_type_date, go_general_primitive_type_date);
(schema_general_primitive_type_datetime, go_general_primitive_type_datetime);
(schema_general_primitive_type_duration, go_general_primitive_type_duration);
(schema_general_primitive_type_float, go_general_primitive_type_float);
(schema_general_primitive_type_integer, go_general_primitive_type_integer);
(schema_general_primitive_type_path, go_general_primitive_type_path);
(schema_general_primitive_type_string, go_general_primitive_type_string);
(schema_general_primitive_type_time, go_general_primitive_type_time);
(schema_general_primitive_type_time_zone, go_general_primitive_type_time_zone);
(schema_go_primitive_types_float, go_go_primitive_types_float);
(schema_go_primitive_types_integer, go_go_primitive_types_integer)].
