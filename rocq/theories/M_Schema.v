(** The schema objects of mapry/__init__.py as an abstract syntax, and JSON
    values.  Object identity of classes and embeds is represented by their
    names (the dictionaries [graph.classes] and [graph.embeds] are keyed by
    name, so that a name designates one object). *)
From Verif Require Import Base M_Naming.
From Coq Require Import String List Arith NArith ZArith Bool Floats.SpecFloat.
Import ListNotations.

(** mapry/__init__.py:21-66, the four attributes of [Integer] and [Float].
    [Float] bounds are integers since mapry/parse.py:131-138 converts them by
    [int(...)]. *)
Record bounds := Bounds { b_min : option Z; b_exmin : bool; b_max : option Z; b_exmax : bool }.

(** mapry/__init__.py:17-179; a class or an embed is referred to by name. *)
Inductive ty :=
| TBool
| TInt (b : bounds)
| TFloat (b : bounds)
| TStr (pattern : option str)
| TPath (pattern : option str)
| TDate (format : str)
| TTime (format : str)
| TDatetime (format : str)
| TTimeZone
| TDuration
| TArray (values : ty) (minimum_size maximum_size : option Z)
| TMap (values : ty)
| TClass (name : str)
| TEmbed (name : str).

(** mapry/__init__.py:182-206 (Property); the back-reference to the composite
    is left out. *)
Record prop := Prop_ {
  p_ref : str; p_name : str; p_type : ty; p_description : str; p_json : str; p_optional : bool }.

(** mapry/__init__.py:209-231 *)
Record embed := Embed {
  e_name : str; e_description : str; e_ref : str; e_props : list prop }.

(** mapry/__init__.py:234-268 *)
Record cls := Cls {
  c_name : str; c_plural : str; c_description : str; c_ref : str;
  c_id_pattern : option str; c_props : list prop }.

(** mapry/__init__.py:271-292 *)
Record graph := Graph {
  g_name : str; g_description : str; g_ref : str;
  g_classes : list cls; g_embeds : list embed; g_props : list prop }.

(** The settings of the languages and the schema, mapry/__init__.py:295-343. *)
Record cpp_conf := CppConf {
  cc_namespace : str; cc_path_as : str; cc_optional_as : str; cc_datetime_library : str; cc_indention : str }.
Record go_conf := GoConf { gc_package : str }.
Record py_conf := PyConf {
  pc_module_name : str; pc_path_as : str; pc_timezone_as : str; pc_indention : str }.
Record schema := Schema {
  sc_graph : graph; sc_cpp : option cpp_conf; sc_go : option go_conf; sc_py : option py_conf }.

Definition find_class (g : graph) (n : str) : option cls :=
  find (fun c => str_eqb (c_name c) n) (g_classes g).
Definition find_embed (g : graph) (n : str) : option embed :=
  find (fun e => str_eqb (e_name e) n) (g_embeds g).

(** Values produced by [json.load] (a dictionary has distinct keys). *)
Inductive jval :=
| JNull
| JBool (b : bool)
| JInt (z : Z)
| JFloat (f : spec_float)
| JStr (s : str)
| JArr (l : list jval)
| JObj (l : list (str * jval)).

Section jval_ind.
  Variable P : jval -> Prop.
  Hypothesis H0 : P JNull.
  Hypothesis H1 : forall b, P (JBool b).
  Hypothesis H2 : forall z, P (JInt z).
  Hypothesis H3 : forall f, P (JFloat f).
  Hypothesis H4 : forall s, P (JStr s).
  Hypothesis H5 : forall l, Forall P l -> P (JArr l).
  Hypothesis H6 : forall l, Forall (fun kv => P (snd kv)) l -> P (JObj l).
  Fixpoint jval_ind' (v : jval) : P v :=
    match v with
    | JNull => H0
    | JBool b => H1 b
    | JInt z => H2 z
    | JFloat f => H3 f
    | JStr s => H4 s
    | JArr l => H5 l ((fix go l : Forall P l :=
        match l with [] => Forall_nil _ | x :: l' => Forall_cons x (jval_ind' x) (go l') end) l)
    | JObj l => H6 l ((fix go l : Forall (fun kv => P (snd kv)) l :=
        match l with
        | [] => Forall_nil _
        | kv :: l' => Forall_cons kv (jval_ind' (snd kv)) (go l')
        end) l)
    end.
End jval_ind.

(** ** Numbers *)

(** Python compares floats with ints exactly: [cmp_float_Z f z] is [None] iff
    [f] is not a number. *)
Definition cmp_float_Z (f : spec_float) (z : Z) : option comparison :=
  match f with
  | S754_nan => None
  | S754_infinity s => Some (if s then Lt else Gt)
  | S754_zero _ => Some (Z.compare 0 z)
  | S754_finite s m e =>
      let n := if s then Zneg m else Zpos m in
      Some (if (0 <=? e)%Z then Z.compare (n * 2 ^ e) z else Z.compare n (z * 2 ^ (- e)))
  end.

(** [float(z)] of a Python int: rounds to nearest even, [None] for
    OverflowError. *)
Definition float_of_Z (z : Z) : option spec_float :=
  match binary_normalize 53 1024 z 0 false with
  | S754_infinity _ => None
  | f => Some f
  end.
