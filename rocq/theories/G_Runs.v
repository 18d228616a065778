(** Runs of the model on given documents, for the comparison with the recorded runs in
    /repo/test_cases (G_Cases.v, G_Golden.v).  These are tests of the model against the code, not
    theorems about it.

    A run is the one of the programs tests/{py,go,cpp}/live_test_*.py: it parses the schema,
    parses the value with it and writes the errors, or else the serialized graph. *)
From Coq Require Import String List Arith NArith ZArith Bool Floats.SpecFloat.
From Verif Require Import Base M_Naming M_Errors M_Dec M_Schema M_Num M_Strftime M_Duration M_Validate M_GoGen M_CppTime M_CppGen S_GoGen M_PyGen.
Import ListNotations.
Local Open Scope nat_scope.

(** ** Results *)

(** A line of the errors; the model does not know the end of some. *)
Inductive line := Exactly (s : str) | Starting (s : str) | Ending (start end_ : str).
Inductive outcome := Lines (ls : list line) | Printed (v : jval) | Crashed.
Inductive expected := ExpErrors (ls : list str) | ExpValue (v : jval).

Fixpoint starts (p s : str) : bool :=
  match p, s with
  | [], _ => true
  | x :: p', y :: s' => N.eqb x y && starts p' s'
  | _, [] => false
  end.
Definition line_ok (l : line) (s : str) : bool :=
  match l with
  | Exactly p => str_eqb p s
  | Starting p => starts p s
  | Ending p q => starts p s && starts (rev q) (rev s)
  end.
Fixpoint lines_ok (ls : list line) (ss : list str) : bool :=
  match ls, ss with
  | [], [] => true
  | l :: ls', s :: ss' => line_ok l s && lines_ok ls' ss'
  | _, _ => false
  end.

Definition sf_eqb (f g : spec_float) : bool :=
  match f, g with
  | S754_zero a, S754_zero b | S754_infinity a, S754_infinity b => Bool.eqb a b
  | S754_nan, S754_nan => true
  | S754_finite a m e, S754_finite b n k => Bool.eqb a b && Pos.eqb m n && Z.eqb e k
  | _, _ => false
  end.
Fixpoint same (v w : jval) : bool :=
  match v, w with
  | JNull, JNull => true
  | JBool a, JBool b => Bool.eqb a b
  | JInt a, JInt b => Z.eqb a b
  | JFloat f, JFloat g => sf_eqb f g
  | JStr a, JStr b => str_eqb a b
  | JArr l, JArr m =>
      (fix all (l m : list jval) : bool :=
         match l, m with
         | [], [] => true
         | x :: l', y :: m' => same x y && all l' m'
         | _, _ => false
         end) l m
  | JObj l, JObj m =>
      (fix all (l m : list (str * jval)) : bool :=
         match l, m with
         | [], [] => true
         | (j, x) :: l', (k, y) :: m' => str_eqb j k && same x y && all l' m'
         | _, _ => false
         end) l m
  | _, _ => false
  end.
(** The members in the order of their keys: Go and jsoncpp sort them. *)
Fixpoint sorted (v : jval) : jval :=
  match v with
  | JArr l => JArr (map sorted l)
  | JObj l => JObj (sort_items (map (fun kv => (fst kv, sorted (snd kv))) l))
  | _ => v
  end.

Definition agrees (view : jval -> jval) (o : outcome) (e : expected) : bool :=
  match o, e with
  | Lines ls, ExpErrors ss => lines_ok ls ss
  | Printed v, ExpValue w => same (view v) (view w)
  | _, _ => false
  end.

(** ** External functions, as tables *)

Record time_row := TimeRow {
  tr_format : str; tr_text : str;         (** the text follows the format *)
  tr_value : dt; tr_written : str }.      (** the value, and how the format writes it *)
Record tables := Tables {
  tb_match : list (str * str);            (** pattern and text which matches *)
  tb_times : list time_row;
  tb_no_zones : list str }.               (** names which are no time zones *)

Definition matches (T : tables) (p s : str) : bool :=
  existsb (fun r => str_eqb (fst r) p && str_eqb (snd r) s) (tb_match T).
Definition zone (T : tables) (s : str) : option str := if mem s (tb_no_zones T) then None else Some s.
Definition row (T : tables) (f s : str) : option time_row :=
  find (fun r => str_eqb (tr_format r) f && str_eqb (tr_text r) s) (tb_times T).

Definition oz_eqb (a b : option Z) : bool :=
  match a, b with Some x, Some y => Z.eqb x y | None, None => true | _, _ => false end.
Definition dt_eqb (a b : dt) : bool :=
  Z.eqb (dt_year a) (dt_year b) && Z.eqb (dt_month a) (dt_month b) && Z.eqb (dt_day a) (dt_day b) &&
  Z.eqb (dt_hour a) (dt_hour b) && Z.eqb (dt_minute a) (dt_minute b) && Z.eqb (dt_second a) (dt_second b) &&
  Z.eqb (dt_micro a) (dt_micro b) && oz_eqb (dt_offset a) (dt_offset b).

(** ** Python *)

Definition py_ext (T : tables) : ext :=
  {| x_re_match := matches T;
     x_strptime f s := option_map tr_value (row T f s);
     x_strftime f d :=
       match find (fun r => str_eqb (tr_format r) f &&
                            (dt_eqb (tr_value r) d || dt_eqb (date_of (tr_value r)) d || dt_eqb (time_of (tr_value r)) d))
                  (tb_times T) with
       | Some r => tr_written r
       | None => []
       end;
     x_path s := s;
     x_tz := zone T;
     x_repr s := s_ "'" ++ s ++ s_ "'";     (* no text of the test cases needs an escape *)
     x_dur_from := py_dur_from;
     x_dur_to := py_dur_to |}.

Definition py_type (t : jtype) : str :=
  match t with
  | JTNone => s_ "<class 'NoneType'>" | JTBool => s_ "<class 'bool'>" | JTInt => s_ "<class 'int'>"
  | JTFloat => s_ "<class 'float'>" | JTStr => s_ "<class 'str'>" | JTList => s_ "<class 'list'>"
  | JTDict => s_ "<class 'collections.OrderedDict'>"
  end.
(** mapry/py/generate/fromjsonable.py: the messages at 224, 263, 308, 321, 334, 386, 399, 411, 462,
    474, 613, 807, 942-959, 1024, 1274, 1346-1356, 1489, 1618, 1635, 1653. *)
Definition py_line (e : perr) : line :=
  let text t := err_ref e ++ s_ ": " ++ t in
  match err_msg e with
  | MExpectedType what got => Exactly (text (s_ "Expected " ++ what ++ s_ ", but got: " ++ py_type got))
  | MExpectedBound op bound got =>
      let t := text (s_ "Expected " ++ op ++ s_ " " ++ dec_Z bound ++ s_ ", but got: ") in
      match got with JInt z => Exactly (t ++ dec_Z z) | _ => Starting t end
  | MExpectedMatch pattern got => Exactly (text (s_ "Expected to match " ++ pattern ++ s_ ", but got: " ++ got))
  | MExpectedStrptime format got => Exactly (text (s_ "Expected to strptime " ++ format ++ s_ ", but got: " ++ got))
  | MExpectedZone got => Exactly (text (s_ "Expected a valid IANA time zone, but got: " ++ got))
  | MDuration got => Ending (text []) (s_ ": '" ++ got ++ s_ "'")
  | MMinimumSize size got =>
      Exactly (text (s_ "Expected a list of minimum size " ++ dec_Z size ++ s_ ", but got size: " ++ dec_nat got))
  | MMaximumSize size got =>
      Exactly (text (s_ "Expected a list of maximum size " ++ dec_Z size ++ s_ ", but got size: " ++ dec_nat got))
  | MMissingReference c id => Exactly (text (s_ "Reference to an instance of class " ++ c ++ s_ " not found: " ++ id))
  | MMissingProperty json => Exactly (text (s_ "Property is missing: " ++ json))
  | MIdMismatch pattern id => Exactly (text (s_ "Expected ID to match " ++ pattern ++ s_ ", but got: " ++ id))
  end.

Definition parse_schema (doc : jval) : res schema := schema_from_mapping (fun _ => true) true doc (s_ "#").

(** tests/py/live_test_generate_jsonable.py:24-83 *)
Definition py_run (T : tables) (doc value : jval) : outcome :=
  match parse_schema doc with
  | Raise _ => Crashed
  | Ok sc =>
      match sc_py sc with
      | None => Crashed
      | Some conf =>
          let S := PySettings (str_eqb (pc_path_as conf) (s_ "pathlib.Path")) (str_eqb (pc_timezone_as conf) (s_ "pytz.timezone")) in
          match graph_from (py_ext T) S (sc_graph sc) value (s_ "#") (py_errors_new 10) with
          | Raise _ => Crashed
          | Ok (g, es) =>
              if negb (py_empty es) then Lines (map py_line (py_values es))
              else match g with
                   | None => Crashed
                   | Some pg =>
                       match serialize_graph (py_ext T) S (sc_graph sc) pg with
                       | Ok v => Printed v
                       | Raise _ => Crashed
                       end
                   end
          end
      end
  end.
(** The members of the output are in the order in which they are set. *)
Definition py_agrees (T : tables) (doc value : jval) (e : expected) : bool :=
  agrees (fun v => v) (py_run T doc value) e.

(** ** Go *)

Definition go_ext (T : tables) : gext :=
  {| g_time := str;
     g_match := matches T;
     g_time_parse l s :=
       option_map tr_written
         (find (fun r => str_eqb (layout (tr_format r)) l && str_eqb (tr_text r) s) (tb_times T));
     g_time_format l t := t;
     g_load := zone T |}.

Definition go_type (t : gtype) : str :=
  match t with
  | GTNil => s_ "<nil>" | GTBool => s_ "bool" | GTInt64 => s_ "int64" | GTFloat64 => s_ "float64"
  | GTString => s_ "string" | GTSlice => s_ "[]interface {}" | GTMap => s_ "map[string]interface {}"
  end.
(** mapry/go/generate/fromjsonable.py: the messages at 438, 485-541, 595-627, 681, 694, 750, 763,
    817-836, 878-897, 952-974, 1044, 1279, 1399-1410, 1547, 1649, 1674, 1690. *)
Definition go_line (e : gerr) : line :=
  let text t := gerr_ref e ++ s_ ": " ++ t in
  match gerr_msg e with
  | GExpectedType what got => Exactly (text (s_ "expected " ++ what ++ s_ ", but got: " ++ go_type got))
  | GWholeNumber _ => Starting (text (s_ "expected a whole number, but got: "))
  | GOverflow _ => Starting (text (s_ "expected the value to fit into int64, but got an overflow: "))
  | GExpectedBound op bound => Starting (text (s_ "expected " ++ op ++ s_ " " ++ dec_Z bound))
  | GExpectedMatch pattern got => Exactly (text (s_ "expected to match " ++ pattern ++ s_ ", but got: " ++ got))
  | GExpectedLayout layout got => Exactly (text (s_ "expected layout " ++ layout ++ s_ ", got: " ++ got))
  | GLocation got => Starting (text (s_ "failed to load location from """ ++ got ++ s_ """"))
  | GDurationMsg got => Starting (text (s_ "failed to parse duration from """ ++ got ++ s_ """: "))
  | GMinimumSize size got =>
      Exactly (text (s_ "expected an array of minimum size " ++ dec_Z size ++ s_ ", but got: " ++ dec_nat got))
  | GMaximumSize size got =>
      Exactly (text (s_ "expected an array of maximum size " ++ dec_Z size ++ s_ ", but got: " ++ dec_nat got))
  | GMissingReference c id => Exactly (text (s_ "reference to an instance of class " ++ c ++ s_ " not found: " ++ id))
  | GMissingProperty json => Exactly (text (s_ "property is missing: " ++ json))
  | GIdMismatch pattern id => Exactly (text (s_ "expected ID to match " ++ pattern ++ s_ ", but got: " ++ id))
  end.

(** The keys in their order: one of the orders in which Go may visit a map. *)
Definition by_key (A : Type) (loop : nat) (ref : str) (l : list (str * A)) : list (str * A) := sort_items l.

(** tests/go/live_test_generate_jsonable.py:25-123; the numbers are read as floats. *)
Definition go_run (T : tables) (doc value : jval) : outcome :=
  match parse_schema doc, via_json value with
  | Ok sc, Some v =>
      match go_graph_from (go_ext T) (sc_graph sc) by_key v (s_ "#") (go_errors_new 0) with
      | Panic _ => Crashed
      | Done (g, es) =>
          if negb (go_empty es) then Lines (map go_line (go_values es))
          else match g with
               | None => Crashed
               | Some gg =>
                   match go_ser_graph (go_ext T) (sc_graph sc) gg with
                   | SOk v => Printed v
                   | SFail _ => Crashed
                   end
               end
      end
  | _, _ => Crashed
  end.
(** The output, as Go reads it. *)
Definition go_view (v : jval) : jval := match via_json v with Some w => sorted w | None => v end.
Definition go_agrees (T : tables) (doc value : jval) (e : expected) : bool :=
  agrees go_view (go_run T doc value) e.

(** ** C++ *)

Definition cpp_ext (T : tables) (date_h : bool) : cext :=
  {| cx_date_h := date_h;
     cx_time := str;
     cx_match := matches T;
     cx_strptime f s := option_map (fun r => (tr_written r, [])) (row T f s);
     cx_strftime f t := t;
     cx_date_parse k f s := option_map (fun r => (tr_written r, [])) (row T f s);
     cx_date_format k f t := t;
     cx_locate := zone T;
     cx_flag s := false;
     cx_max_size := 2 ^ 62 |}.

Definition cpp_type (t : ctype) : str :=
  match t with
  | CTNull => s_ "null" | CTInt => s_ "int" | CTUint => s_ "uint" | CTReal => s_ "real"
  | CTString => s_ "string" | CTBool => s_ "bool" | CTArray => s_ "array" | CTObject => s_ "object"
  end.
(** mapry/cpp/generate/jsoncpp_impl.py: the messages at 512, 563, 578-605, 662, 677-704, 760, 775-784,
    933-956, 1236, 1317, 1383-1413, 1481, 1557-1574, 1837, 1926, 2006, 2035, 2055-2062. *)
Definition cpp_line (date_h : bool) (e : cerr) : line :=
  let text t := cerr_ref e ++ s_ ": " ++ t in
  match cerr_msg e with
  | CExpectedType what got => Exactly (text (s_ "Expected " ++ what ++ s_ ", but got: " ++ cpp_type got))
  | CExpectedBound op bound => Starting (text (s_ "Expected " ++ op ++ s_ " " ++ dec_Z bound))
  | CExpectedMatch pattern got => Exactly (text (s_ "Expected to match " ++ pattern ++ s_ ", but got: " ++ got))
  | CExpectedFormat format got =>
      Exactly (text (s_ "Expected to " ++ s_ (if date_h then "date::parse " else "strptime ") ++ format ++ s_ ", but got: " ++ got))
  | CExpectedZone got => Exactly (text (s_ "Expected a valid IANA time zone, but got: " ++ got))
  | CInvalidDuration got => Ending (text (s_ "Invalid duration: ")) (s_ ": " ++ got)
  | CMinimumSize size got =>
      Exactly (text (s_ "Expected an array of minimum size " ++ dec_Z size ++ s_ ", but got: " ++ dec_nat got))
  | CMaximumSize size got =>
      Exactly (text (s_ "Expected an array of maximum size " ++ dec_Z size ++ s_ ", but got: " ++ dec_nat got))
  | CMissingReference c id => Exactly (text (s_ "Reference to an instance of class " ++ c ++ s_ " not found: " ++ id))
  | CMissingProperty json => Exactly (text (s_ "Property is missing: " ++ json))
  | CIdMismatch pattern id => Exactly (text (s_ "Expected ID to match " ++ pattern ++ s_ ", but got: " ++ id))
  end.

(** tests/cpp/live_test_generate_jsoncpp.py:27-105; jsoncpp visits the members in the order of
    their keys. *)
Definition cpp_run (T : tables) (doc value : jval) : outcome :=
  match parse_schema doc with
  | Raise _ => Crashed
  | Ok sc =>
      match sc_cpp sc with
      | None => Crashed
      | Some conf =>
          let date_h := str_eqb (cc_datetime_library conf) (s_ "date.h") in
          match cpp_graph_from (cpp_ext T date_h) (sc_graph sc) by_key value (s_ "#") (cpp_errors_new 1024) with
          | CThrown _ => Crashed
          | CDone (g, es) =>
              if negb (cpp_empty es) then Lines (map (cpp_line date_h) (cpp_values es))
              else match g with
                   | None => Crashed
                   | Some cg =>
                       match cpp_ser_graph (cpp_ext T date_h) (sc_graph sc) cg with
                       | CDone v => Printed v
                       | CThrown _ => Crashed
                       end
                   end
          end
      end
  end.
Definition cpp_agrees (T : tables) (doc value : jval) (e : expected) : bool :=
  agrees sorted (cpp_run T doc value) e.
