(** How the memory of a Go program (S_GoRun.v) holds JSON values and graphs (C66). *)
From Coq Require Import String List Arith NArith ZArith Bool Floats.SpecFloat.
From Verif Require Import Base M_Naming M_Schema M_Dec M_Errors M_GoGen S_Scope M_GoScope S_GoTyping S_GoRun.
Import ListNotations.
Open Scope list_scope.
Local Open Scope nat_scope.

(** A value of the type [interface{}], read out of the memory, is the given JSON value; all its
    objects and arrays lie in cells from [lo] on. *)
Fixpoint reads {T} (H : list (rv T)) (lo : nat) (j : jval) (v : rv T) {struct j} : Prop :=
  match j with
  | JNull => v = RNil
  | JBool b => v = RBool b
  | JInt z => v = RInt z
  | JFloat f => v = RFloat f
  | JStr s => v = RStr s
  | JArr js =>
      exists a ws, v = RSlice a /\ lo <= a /\ nth_error H a = Some (RItems ws) /\
        (fix all (js : list jval) (ws : list (rv T)) : Prop :=
           match js, ws with
           | [], [] => True
           | j :: js', w :: ws' => reads H lo j w /\ all js' ws'
           | _, _ => False
           end) js ws
  | JObj js =>
      exists a ws, v = RMap a /\ lo <= a /\ nth_error H a = Some (REntries ws) /\
        (fix all (js : list (str * jval)) (ws : list (str * rv T)) : Prop :=
           match js, ws with
           | [], [] => True
           | (k, j) :: js', (k', w) :: ws' => k = k' /\ reads H lo j w /\ all js' ws'
           | _, _ => False
           end) js ws
  end.

Section Memory.
  Variable X : gext.
  Variable G : graph.
  (** The objects of the model, and the cells of the instances *)
  Variable heap : list (gobj (g_time X)).
  Variable inst : addr -> nat.
  Variable H : memory X.
  Notation val := (rv (g_time X)).
  Notation gval := (goval (g_time X)).

  Definition at_place (l : place) : option val := match nth_error H (fst l) with Some v => part (snd l) v | None => None end.

  (** A value of the type of a property in the memory, and the value of the model *)
  Inductive shown : ty -> val -> gval -> Prop :=
  | shown_bool b : shown TBool (RBool b) (M_GoGen.GBool b)
  | shown_int bs z : shown (TInt bs) (RInt z) (M_GoGen.GInt z)
  | shown_float bs f : shown (TFloat bs) (RFloat f) (GFloat f)
  | shown_str p s : shown (TStr p) (RStr s) (GStr s)
  | shown_path p s : shown (TPath p) (RStr s) (GStr s)
  | shown_date f x : shown (TDate f) (RTime x) (GTime x)
  | shown_time f x : shown (TTime f) (RTime x) (GTime x)
  | shown_datetime f x : shown (TDatetime f) (RTime x) (GTime x)
  | shown_zone s : shown TTimeZone (RZone s) (GZone s)
  | shown_no_zone : shown TTimeZone RNil GNil
  | shown_duration d : shown TDuration (RDuration d) (GDuration d)
  | shown_array t mn mx a ws vs :
      nth_error H a = Some (RItems ws) -> Forall2 (shown t) ws vs -> shown (TArray t mn mx) (RSlice a) (GList vs)
  | shown_no_array t mn mx : shown (TArray t mn mx) RNil GNil
  | shown_map t a ws vs :
      nth_error H a = Some (REntries ws) -> NoDup (keys vs) -> Forall2 (fun kw kv => fst kw = fst kv /\ shown t (snd kw) (snd kv)) ws vs ->
      shown (TMap t) (RMap a) (M_GoGen.GMap vs)
  | shown_no_map t : shown (TMap t) RNil GNil
  | shown_ref n a i ws :
      nth_error heap a = Some i -> nth_error H (inst a) = Some (RStruct ws) -> lookup (s_ "ID") ws = Some (RStr (o_id i)) ->
      shown (TClass n) (RPointer (inst a, [])) (GRef a)
  | shown_no_ref n : shown (TClass n) RNil GNil
  | shown_embed n e ws vs :
      find_embed G n = Some e ->
      (forall p, In p (e_props e) -> exists w v, lookup (field (p_name p)) ws = Some w /\ lookup (field (p_name p)) vs = Some v /\ shown_property p w v) ->
      shown (TEmbed n) (RStruct ws) (GStruct vs)
  (** The field of a property: a pointer if it is optional, unless the type has a [nil] *)
  with shown_property : prop -> val -> gval -> Prop :=
  | shown_required p w v : p_optional p = false -> shown (p_type p) w v -> shown_property p w v
  | shown_nillable p w v : p_optional p = true -> is_pointer_type (p_type p) = true -> shown (p_type p) w v -> shown_property p w v
  | shown_optional p l w v :
      p_optional p = true -> is_pointer_type (p_type p) = false -> at_place l = Some w -> shown (p_type p) w v ->
      shown_property p (RPointer l) v
  | shown_none p : p_optional p = true -> is_pointer_type (p_type p) = false -> shown_property p RNil GNil.

  Definition shown_fields (ps : list prop) (ws : list (str * val)) (vs : list (str * gval)) : Prop :=
    forall p, In p ps -> exists w v, lookup (field (p_name p)) ws = Some w /\ lookup (field (p_name p)) vs = Some v /\ shown_property p w v.
  (** The registry of a class: the field of the graph, and that of the model *)
  Definition shown_registry (c : cls) (w : val) (reg : list (str * addr)) : Prop :=
    NoDup (keys reg) /\
    ((w = RNil /\ reg = []) \/
     exists a, w = RMap a /\ nth_error H a = Some (REntries (map (fun ka => (fst ka, RPointer (inst (snd ka), []))) reg)) /\
       forall k o, In (k, o) reg -> exists i ws, nth_error heap o = Some i /\ nth_error H (inst o) = Some (RStruct ws) /\
         lookup (s_ "ID") ws = Some (RStr (o_id i)) /\ shown_fields (c_props c) ws (o_fields i)).
End Memory.

(** A graph in the memory: the structure at the place [l] *)
Definition shown_graph (X : gext) (G : graph) (inst : addr -> nat) (H : memory X) (l : place) (gg : gograph (g_time X)) : Prop :=
  exists ws, at_place X H l = Some (RStruct ws) /\
    shown_fields X G (gg_heap gg) inst H (g_props G) ws (gg_fields gg) /\
    forall c, In c (g_classes G) -> exists w, lookup (field (c_plural c)) ws = Some w /\
      shown_registry X G (gg_heap gg) inst H c w (match lookup (field (c_plural c)) (gg_registries gg) with Some r => r | None => [] end).

(** What lies in the memory stays there. *)
Definition unchanged {T} (H H' : list (rv T)) : Prop := forall a v, nth_error H a = Some v -> nth_error H' a = Some v.
(** With enough steps, the run comes to its end with this outcome. *)
Definition run_ends {X A} (run : nat -> act X A) (H : memory X) (o : out (A * memory X)) : Prop := exists n0, forall n, n0 <= n -> run n H = o.

(** * Parsing (C67) *)

(** A JSON value in the memory which has no part in the cells [W]; a map has each key once. *)
Fixpoint json_in {T} (H : list (rv T)) (W : list nat) (j : jval) (v : rv T) {struct j} : Prop :=
  match j with
  | JNull => v = RNil
  | JBool b => v = RBool b
  | JInt z => v = RInt z
  | JFloat f => v = RFloat f
  | JStr s => v = RStr s
  | JArr js =>
      exists a ws, v = RSlice a /\ ~ In a W /\ nth_error H a = Some (RItems ws) /\
        (fix all (js : list jval) (ws : list (rv T)) : Prop :=
           match js, ws with
           | [], [] => True
           | j :: js', w :: ws' => json_in H W j w /\ all js' ws'
           | _, _ => False
           end) js ws
  | JObj js =>
      exists a ws, v = RMap a /\ ~ In a W /\ nth_error H a = Some (REntries ws) /\ NoDup (keys js) /\
        (fix all (js : list (str * jval)) (ws : list (str * rv T)) : Prop :=
           match js, ws with
           | [], [] => True
           | (k, j) :: js', (k', w) :: ws' => k = k' /\ json_in H W j w /\ all js' ws'
           | _, _ => False
           end) js ws
  end.

(** The dynamic type of a value of JSON *)
Definition kind {T} (v : rv T) : option M_GoGen.gtype :=
  match v with
  | RNil => Some GTNil | RBool _ => Some GTBool | RInt _ => Some GTInt64 | RFloat _ => Some GTFloat64
  | RStr _ => Some GTString | RSlice _ => Some GTSlice | RMap _ => Some GTMap | _ => None
  end.

Section Messages.
  Variable X : gext.
  Variable printed : str -> list (rv (g_time X)) -> str.
  Definition shows (format : str) (args : list (rv (g_time X))) (text : str) : Prop := text = printed format args.

  (** The texts of the errors: formats, and what is shown *)
  Inductive says : gmsg -> str -> Prop :=
  | says_type what got v text : kind v = Some got -> shows (s_ "expected " ++ what ++ s_ ", but got: %T") [v] text -> says (GExpectedType what got) text
  | says_whole f text : shows (s_ "expected a whole number, but got: %f") [RFloat f] text -> says (GWholeNumber f) text
  | says_overflow f text : shows (s_ "expected the value to fit into int64, but got an overflow: %f") [RFloat f] text -> says (GOverflow f) text
  | says_int op m z text : shows (s_ "expected " ++ op ++ s_ " " ++ dec_Z m ++ s_ ", but got: %d") [RInt z] text -> says (GExpectedBound op m) text
  | says_float op m f text : shows (s_ "expected " ++ op ++ s_ " " ++ dec_Z m ++ s_ ", but got: %f") [RFloat f] text -> says (GExpectedBound op m) text
  | says_match p s text : shows (s_ "expected to match " ++ p ++ s_ ", but got: %s") [RStr s] text -> says (GExpectedMatch p s) text
  | says_layout l s text : shows (s_ "expected layout " ++ l ++ s_ ", got: %s") [RStr s] text -> says (GExpectedLayout l s) text
  | says_location s why text : shows (s_ "failed to load location from %#v: %s") [RStr s; RStr why] text -> says (GLocation s) text
  | says_duration s why text : shows (s_ "failed to parse duration from %#v: %s") [RStr s; RStr why] text -> says (GDurationMsg s) text
  | says_minimum m k text : shows (s_ "expected an array of minimum size " ++ dec_Z m ++ s_ ", but got: %d") [RInt (Z.of_nat k)] text -> says (GMinimumSize m k) text
  | says_maximum m k text : shows (s_ "expected an array of maximum size " ++ dec_Z m ++ s_ ", but got: %d") [RInt (Z.of_nat k)] text -> says (GMaximumSize m k) text
  | says_reference n s text : shows (s_ "reference to an instance of class " ++ ucamel n ++ s_ " not found: %s") [RStr s] text -> says (GMissingReference n s) text
  | says_missing json : says (GMissingProperty json) (s_ "property is missing: " ++ json)
  | says_id p s text : shows (s_ "expected ID to match " ++ p ++ s_ ", but got: %s") [RStr s] text -> says (GIdMismatch p s) text.

  (** The container of the errors in the cell [ec] *)
  Definition rendered (es : gerrs) (ers : go_errors (str * str)) : Prop :=
    go_cap ers = go_cap es /\ Forall2 (fun e rt => fst rt = gerr_ref e /\ says (gerr_msg e) (snd rt)) (go_values es) (go_values ers).
  Definition errors_at (H : memory X) (ec : nat) (es : gerrs) : Prop := exists ers, nth_error H ec = Some (RErrors ers) /\ rendered es ers.
End Messages.
