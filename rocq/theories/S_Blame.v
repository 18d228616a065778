(** Specification: where the errors of the generated parsers point to and what they
    say (C51). *)
From Coq Require Import String List ZArith Floats.SpecFloat.
From Verif Require Import Base M_Naming M_Dec M_Schema M_Num M_PyGen M_GoGen M_CppGen S_Conform S_Common S_PyGen S_GoGen S_CppGen.
Import ListNotations.
Local Open Scope nat_scope.

(** What the languages accept. *)
Record rules := Rules {
  r_quote : str -> str;                     (** how the keys of maps and the identifiers of
                                                instances are written in references *)
  r_key : cls -> str;                       (** the key of the registry of a class *)
  r_given : jval -> Prop;                   (** which values count as given: Python takes
                                                null for absent *)
  r_kind : ty -> jval -> Prop;              (** the kind of JSON value expected for a type *)
  r_leaf : ty -> jval -> Prop;              (** scalars, as in S_Conform *)
  r_whole : jval -> Prop;                   (** the number has no fraction *)
  r_fits : jval -> Prop;                    (** the number has 64 bits *)
  r_in : ty -> bounds -> jval -> Prop;      (** the number is within the bounds *)
  r_first : bool;                           (** a violated minimum hides a violated maximum *)
  r_id : str -> str -> Prop }.              (** the identifier matches the pattern *)

(** ** Places in a document *)

(** What is expected at a place: the whole graph, the registry of a class, an object with
    properties, or a value of a type; and what is there. *)
Inductive site :=
| Whole (v : jval)
| Registry (c : cls) (v : jval)
| Object (ps : list prop) (v : jval)
| Value (t : ty) (v : jval).

Definition below_ref (r part : str) : str := r ++ s_ "/" ++ part.

Section Places.
  Variable G : graph.
  Variable L : rules.
  Notation quote := (r_quote L).
  Notation key := (r_key L).
  Notation given := (r_given L).

  (** The sites directly below a site, with their references. *)
  Inductive step : str -> site -> str -> site -> Prop :=
  | st_registry r l c v : In c (g_classes G) -> lookup (key c) l = Some v -> given v ->
      step r (Whole (JObj l)) (below_ref r (key c)) (Registry c v)
  | st_own r v : step r (Whole v) r (Object (g_props G) v)
  | st_instance r c m id v : In (id, v) m ->
      step r (Registry c (JObj m)) (below_ref r (quote id)) (Object (c_props c) v)
  | st_property r ps l p v : In p ps -> lookup (p_json p) l = Some v -> given v ->
      step r (Object ps (JObj l)) (below_ref r (p_json p)) (Value (p_type p) v)
  | st_item r t mn mx l i v : size_ok mn mx (length l) -> nth_error l i = Some v ->
      step r (Value (TArray t mn mx) (JArr l)) (below_ref r (dec_nat i)) (Value t v)
  | st_entry r t l k v : In (k, v) l ->
      step r (Value (TMap t) (JObj l)) (below_ref r (quote k)) (Value t v)
  | st_embed r n e v : find_embed G n = Some e ->
      step r (Value (TEmbed n) v) r (Object (e_props e) v).

  Inductive within (r : str) (s : site) : str -> site -> Prop :=
  | wi_here : within r s r s
  | wi_below r1 s1 r2 s2 : step r s r1 s1 -> within r1 s1 r2 s2 -> within r s r2 s2.
End Places.

(** ** What is wrong there *)

Inductive complaint :=
| BadKind                  (** another kind of JSON value is expected *)
| BadText                  (** the text does not match, or can not be read *)
| NotWhole                 (** the number has a fraction *)
| TooLarge                 (** the number has more than 64 bits *)
| Below (m : Z)            (** the number violates the minimum *)
| Above (m : Z)            (** the number violates the maximum *)
| TooFew (n : Z)
| TooMany (n : Z)
| NoInstance (n id : str)  (** there is no such instance *)
| Missing (k : str)        (** the required property is missing *)
| BadId (p id : str).      (** the identifier does not match *)

Definition low (b : bounds) : bounds := Bounds (b_min b) (b_exmin b) None false.
Definition high (b : bounds) : bounds := Bounds None false (b_max b) (b_exmax b).

Section Complaints.
  Variable L : rules.
  (** There is an instance of the class with the identifier. *)
  Variable known : str -> str -> Prop.

  Definition is_object (v : jval) : Prop := exists l, v = JObj l.
  (** The texts of the type may be wrong. *)
  Definition textual (t : ty) : bool :=
    match t with
    | TStr _ | TPath _ | TDate _ | TTime _ | TDatetime _ | TTimeZone | TDuration => true
    | _ => false
    end.
  (** The number is read for its bounds to be checked. *)
  Definition number (t : ty) (v : jval) : Prop :=
    r_kind L t v /\ match t with TInt _ => r_whole L v /\ r_fits L v | _ => True end.
  Definition bounds_of (t : ty) : option bounds := match t with TInt b | TFloat b => Some b | _ => None end.

  Definition value_flaw (t : ty) (v : jval) (k : complaint) : Prop :=
    match k with
    | BadKind => (forall n, t <> TEmbed n) /\ ~ r_kind L t v
    | BadText => textual t = true /\ exists s, v = JStr s /\ ~ r_leaf L t v
    | NotWhole => exists b, t = TInt b /\ r_kind L t v /\ ~ r_whole L v
    | TooLarge => exists b, t = TInt b /\ r_kind L t v /\ r_whole L v /\ ~ r_fits L v
    | Below m =>
        number t v /\ exists b, bounds_of t = Some b /\ b_min b = Some m /\ ~ r_in L t (low b) v
    | Above m =>
        number t v /\ exists b, bounds_of t = Some b /\ b_max b = Some m /\ ~ r_in L t (high b) v /\
          (r_first L = true -> r_in L t (low b) v)
    | TooFew n => exists t' mn mx l, t = TArray t' mn mx /\ v = JArr l /\
        mn = Some n /\ (Z.of_nat (length l) < n)%Z
    | TooMany n => exists t' mn mx l, t = TArray t' mn mx /\ v = JArr l /\
        mx = Some n /\ (n < Z.of_nat (length l))%Z /\
        forall m, mn = Some m -> (m <= Z.of_nat (length l))%Z
    | NoInstance n id => t = TClass n /\ v = JStr id /\ ~ known n id
    | _ => False
    end.

  Definition holds (s : site) (k : complaint) : Prop :=
    match s, k with
    | Registry _ v, BadKind | Object _ v, BadKind => ~ is_object v
    | Registry c v, BadId p id =>
        exists m, v = JObj m /\ In id (keys m) /\ c_id_pattern c = Some p /\ ~ r_id L p id
    | Object ps v, Missing j =>
        exists l p, v = JObj l /\ In p ps /\ p_json p = j /\ p_optional p = false /\
          forall x, lookup j l = Some x -> ~ r_given L x
    | Value t v, _ => value_flaw t v k
    | _, _ => False
    end.
End Complaints.

(** What can be said of a document at the reference [r]: at which reference, of which
    site, and what is wrong there. *)
Definition flaw (G : graph) (L : rules) (known : str -> str -> Prop) (r : str) (s : site)
    (r' : str) (s' : site) (k : complaint) : Prop :=
  within G L r s r' s' /\ holds L known s' k.

(** The instances listed in a document. *)
Definition listed_in (G : graph) (L : rules) (w : jval) (n id : str) : Prop :=
  exists l, w = JObj l /\ listed G (r_key L) l n id.

Definition is_registry (s : site) : Prop := match s with Registry _ _ => True | _ => False end.

(** ** The reported errors

    [E] is the type of errors, [text] the message about a complaint at a site. *)
Section Reports.
  Context {E T : Type}.
  Variable (ref_of : E -> str) (msg_of : E -> T) (text : site -> complaint -> T).
  Variable G : graph.
  Variable L : rules.

  (** The error [e] tells what is wrong with the document [w]. *)
  Definition tells (ref : str) (w : jval) (e : E) : Prop :=
    exists s k, flaw G L (listed_in G L w) ref (Whole w) (ref_of e) s k /\ msg_of e = text s k.
  (** The same about the registries: keys of the graph and identifiers of instances. *)
  Definition tells_registry (ref : str) (w : jval) (e : E) : Prop :=
    exists s k, is_registry s /\
      flaw G L (listed_in G L w) ref (Whole w) (ref_of e) s k /\ msg_of e = text s k.
End Reports.

(** ** The rules of Python *)

Definition is_text (v : jval) : Prop := exists s, v = JStr s.

Definition py_kind (t : ty) (v : jval) : Prop :=
  match t with
  | TBool => exists b, v = JBool b
  | TInt _ => exists z, int_value v z
  | TFloat _ => (exists f, v = JFloat f) \/ exists z, int_value v z
  | TArray _ _ _ => exists l, v = JArr l
  | TMap _ | TEmbed _ => is_object v
  | _ => is_text v
  end.

Definition py_rules (X : ext) (S : py_settings) : rules := {|
  r_quote := x_repr X;
  r_key := py_key;
  r_given := fun v => v <> JNull;
  r_kind := py_kind;
  r_leaf := py_leaf X S;
  r_whole := fun _ => True;
  r_fits := fun _ => True;
  r_in := fun _ b v => (exists f, v = JFloat f /\ float_in_range b f) \/
                       (exists z, int_value v z /\ in_range b z);
  r_first := false;
  r_id := py_id_ok X |}.

Definition symbol_min (t : ty) : str :=
  match bounds_of t with Some b => if b_exmin b then s_ ">" else s_ ">=" | None => [] end.
Definition symbol_max (t : ty) : str :=
  match bounds_of t with Some b => if b_exmax b then s_ "<" else s_ "<=" | None => [] end.
Definition length_of (v : jval) : nat := match v with JArr l => length l | _ => 0 end.
Definition text_of (v : jval) : str := match v with JStr s => s | _ => [] end.
Definition float_of (v : jval) : spec_float := match v with JFloat f => f | _ => S754_nan end.
Definition site_value (s : site) : jval :=
  match s with Whole v | Registry _ v | Object _ v | Value _ v => v end.

Definition py_noun (s : site) : str :=
  match s with
  | Value t _ =>
      match t with
      | TBool => s_ "a bool" | TInt _ => s_ "an integer" | TFloat _ => s_ "a number"
      | TArray _ _ _ => s_ "a list" | TMap _ => s_ "a dict" | TClass _ => s_ "a str"
      | _ => s_ "a string"
      end
  | _ => s_ "a dictionary"
  end.

Definition py_text (s : site) (k : complaint) : msg :=
  let v := site_value s in
  let t := match s with Value t _ => t | _ => TBool end in
  match k with
  | BadKind => MExpectedType (py_noun s) (type_of v)
  | BadText =>
      match t with
      | TStr (Some p) | TPath (Some p) => MExpectedMatch p (text_of v)
      | TDate f | TTime f | TDatetime f => MExpectedStrptime f (text_of v)
      | TDuration => MDuration (text_of v)
      | _ => MExpectedZone (text_of v)
      end
  | Below m => MExpectedBound (symbol_min t) m v
  | Above m => MExpectedBound (symbol_max t) m v
  | TooFew n => MMinimumSize n (length_of v)
  | TooMany n => MMaximumSize n (length_of v)
  | NoInstance n id => MMissingReference n id
  | Missing j => MMissingProperty j
  | BadId p id => MIdMismatch p id
  | NotWhole | TooLarge => MExpectedType [] JTNone   (** does not occur *)
  end.

(** ** The rules of Go *)

Definition go_kind (t : ty) (v : jval) : Prop :=
  match t with
  | TBool => exists b, v = JBool b
  | TInt _ | TFloat _ => exists f, v = JFloat f
  | TArray _ _ _ => exists l, v = JArr l
  | TMap _ | TEmbed _ => is_object v
  | _ => is_text v
  end.

Definition go_rules (X : gext) : rules := {|
  r_quote := fun s => s;
  r_key := go_cls_key;
  r_given := fun _ => True;
  r_kind := go_kind;
  r_leaf := go_leaf X;
  r_whole := fun v => exists f, v = JFloat f /\
               ((exists z, float_is f z) \/ exists s, f = S754_infinity s);
  r_fits := fun v => exists f z, v = JFloat f /\ float_is f z /\ int64 z;
  r_in := fun _ b v => exists f, v = JFloat f /\ float_in_range b f;
  r_first := true;
  r_id := go_id_ok X |}.

Definition go_noun (s : site) : str :=
  match s with
  | Value t _ =>
      match t with
      | TBool => s_ "a bool" | TInt _ | TFloat _ => s_ "a float64"
      | TArray _ _ _ => s_ "a []interface{}" | TMap _ => s_ "a map[string]interface{}"
      | _ => s_ "a string"
      end
  | _ => s_ "a map[string]interface{}"
  end.

Definition go_text (s : site) (k : complaint) : gmsg :=
  let v := site_value s in
  let t := match s with Value t _ => t | _ => TBool end in
  match k with
  | BadKind => GExpectedType (go_noun s) (gtype_of v)
  | BadText =>
      match t with
      | TStr (Some p) | TPath (Some p) => GExpectedMatch p (text_of v)
      | TDate f | TTime f | TDatetime f => GExpectedLayout (layout f) (text_of v)
      | TDuration => GDurationMsg (text_of v)
      | _ => GLocation (text_of v)
      end
  | NotWhole => GWholeNumber (float_of v)
  | TooLarge => GOverflow (float_of v)
  | Below m => GExpectedBound (symbol_min t) m
  | Above m => GExpectedBound (symbol_max t) m
  | TooFew n => GMinimumSize n (length_of v)
  | TooMany n => GMaximumSize n (length_of v)
  | NoInstance n id => GMissingReference n id
  | Missing j => GMissingProperty j
  | BadId p id => GIdMismatch p id
  end.

(** ** The rules of C++ *)

Definition cpp_kind (t : ty) (v : jval) : Prop :=
  match t with
  | TBool => exists b, v = JBool b
  | TInt _ => exists z, whole v z /\ int64 z
  | TFloat _ => exists f, double v f
  | TArray _ _ _ => exists l, v = JArr l
  | TMap _ | TEmbed _ => is_object v
  | _ => is_text v
  end.

Definition cpp_rules (X : cext) : rules := {|
  r_quote := fun s => s;
  r_key := cpp_cls_key;
  r_given := fun _ => True;
  r_kind := cpp_kind;
  r_leaf := cpp_leaf X;
  r_whole := fun _ => True;
  r_fits := fun _ => True;
  r_in := fun t b v => match t with
                       | TInt _ => exists z, whole v z /\ in_range b z
                       | _ => exists f, double v f /\ float_in_range b f
                       end;
  r_first := false;
  r_id := cpp_id_ok X |}.

Definition cpp_noun (s : site) : str :=
  match s with
  | Value t _ =>
      match t with
      | TBool => s_ "a bool" | TInt _ => s_ "an int64" | TFloat _ => s_ "a double"
      | TArray _ _ _ => s_ "an array" | TMap _ => s_ "an object"
      | _ => s_ "a string"
      end
  | _ => s_ "an object"
  end.

Definition cpp_text (s : site) (k : complaint) : cmsg :=
  let v := site_value s in
  let t := match s with Value t _ => t | _ => TBool end in
  match k with
  | BadKind => CExpectedType (cpp_noun s) (ctype_of v)
  | BadText =>
      match t with
      | TStr (Some p) | TPath (Some p) => CExpectedMatch p (text_of v)
      | TDate f | TTime f | TDatetime f => CExpectedFormat f (text_of v)
      | TDuration => CInvalidDuration (text_of v)
      | _ => CExpectedZone (text_of v)
      end
  | Below m => CExpectedBound (symbol_min t) m
  | Above m => CExpectedBound (symbol_max t) m
  | TooFew n => CMinimumSize n (length_of v)
  | TooMany n => CMaximumSize n (length_of v)
  | NoInstance n id => CMissingReference n id
  | Missing j => CMissingProperty j
  | BadId p id => CIdMismatch p id
  | NotWhole | TooLarge => CExpectedType [] CTNull   (** does not occur *)
  end.

(** ** Unambiguous references *)

Definition slash_free (s : str) : Prop := ~ In 47%N s.

(** All keys of the objects of a document satisfy [P]. *)
Inductive all_keys (P : str -> Prop) : jval -> Prop :=
| ak_null : all_keys P JNull
| ak_bool b : all_keys P (JBool b)
| ak_int z : all_keys P (JInt z)
| ak_float f : all_keys P (JFloat f)
| ak_str s : all_keys P (JStr s)
| ak_arr l : (forall v, In v l -> all_keys P v) -> all_keys P (JArr l)
| ak_obj l : (forall k v, In (k, v) l -> P k /\ all_keys P v) -> all_keys P (JObj l).

(** The JSON names of properties and the keys of registries have no slashes and are not
    shared. *)
Definition clear_names (G : graph) (L : rules) : Prop :=
  (forall ps, In ps (composites G) -> NoDup (map p_json ps) /\ forall p, In p ps -> slash_free (p_json p)) /\
  NoDup (map p_json (g_props G) ++ map (r_key L) (g_classes G)) /\
  forall c, In c (g_classes G) -> slash_free (r_key L c).
