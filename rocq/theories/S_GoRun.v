(** What the statements of S_GoTyping.v do when they are run (C66): the part of The Go Programming
    Language Specification and of the packages which the generated code needs.

    The memory is a list of cells, which are never freed.  A variable is a cell; pointers lead
    to a cell or to a part of the value in it; maps and slices are references to cells with their
    entries.  [Stuck] stands for what does not compile and for a run which needs more steps than
    it was given.

    Simplifications: a map lists its entries in the order in which [range] visits them; the
    value for a missing key is [nil] (the maps of the code have interfaces or pointers where such
    a value is used); of the dynamic types only those of JSON are told apart; [x, ok := e] always
    declares both variables; what is deferred runs at the end of the block, which in the code is
    the body of the function. *)
From Coq Require Import String List Arith NArith ZArith Bool Floats.SpecFloat.
From Verif Require Import Base M_Naming M_Dec M_Schema M_Num M_Errors M_GoGen S_Scope S_Compare S_GoTyping.
Import ListNotations.
Open Scope list_scope.
Local Open Scope nat_scope.

Definition thing_dec (x y : thing) : {x = y} + {x <> y}.
Proof. decide equality; try apply string_dec; apply (list_eq_dec N.eq_dec). Defined.

(** * Values *)

(** A part of a value *)
Inductive step := AtField (f : str) | AtIndex (i : nat).
(** A place: a cell and the way to a part of its value *)
Definition place : Type := nat * list step.

(** [T] is the type [time.Time]. *)
Inductive rv (T : Type) :=
| RNil
| RBool (b : bool)
| RInt (z : Z)
| RFloat (f : spec_float)
| RStr (s : str)
| RTime (t : T)
| RZone (s : str)                         (** a [*time.Location] which is not nil, by its name *)
| RDuration (ns : Z)
| RRegexp (p : str)                       (** the pattern which it was compiled from *)
| RError (text : str)                     (** an [error] which is not nil *)
| RPointer (l : place)
| RMap (a : nat)                          (** the cell with the entries *)
| RSlice (a : nat)                        (** the cell with the items *)
| RStruct (fields : list (str * rv T))
| RZero                                   (** the zero value of a structure of a library *)
| REntries (l : list (str * rv T))        (** only in cells *)
| RItems (l : list (rv T))                (** only in cells *)
| RErrors (e : go_errors (str * str)).    (** the structure [Errors] of the package: references and texts *)
Arguments RNil {T}. Arguments RBool {T}. Arguments RInt {T}. Arguments RFloat {T}. Arguments RStr {T}. Arguments RTime {T}.
Arguments RZone {T}. Arguments RDuration {T}. Arguments RRegexp {T}. Arguments RError {T}. Arguments RPointer {T}. Arguments RMap {T}.
Arguments RSlice {T}. Arguments RStruct {T}. Arguments RZero {T}. Arguments REntries {T}. Arguments RItems {T}. Arguments RErrors {T}.

(** The variables in scope with their cells *)
Definition scope := list (thing * nat).
Fixpoint cell_of (r : scope) (x : thing) : option nat :=
  match r with
  | [] => None
  | (y, a) :: r' => if thing_dec x y then Some a else cell_of r' x
  end.

Fixpoint replace {A} (i : nat) (x : A) (l : list A) : list A :=
  match l, i with
  | [], _ => []
  | _ :: l', 0 => x :: l'
  | y :: l', S i' => y :: replace i' x l'
  end.

(** The part of a value *)
Fixpoint part {T} (path : list step) (v : rv T) : option (rv T) :=
  match path with
  | [] => Some v
  | AtField f :: path' => match v with RStruct l => match lookup f l with Some w => part path' w | None => None end | _ => None end
  | AtIndex i :: path' => match v with RItems l => match nth_error l i with Some w => part path' w | None => None end | _ => None end
  end.
(** The value with the part changed to [w] *)
Fixpoint with_part {T} (path : list step) (w v : rv T) : option (rv T) :=
  match path with
  | [] => Some w
  | AtField f :: path' =>
      match v with
      | RStruct l =>
          match lookup f l with
          | Some u => match with_part path' w u with Some u' => Some (RStruct (upsert f u' l)) | None => None end
          | None => None
          end
      | _ => None
      end
  | AtIndex i :: path' =>
      match v with
      | RItems l =>
          match nth_error l i with
          | Some u => match with_part path' w u with Some u' => Some (RItems (replace i u' l)) | None => None end
          | None => None
          end
      | _ => None
      end
  end.

(** * Effects *)

Inductive out (A : Type) := Out (a : A) | Panicked | Stuck.
Arguments Out {A}. Arguments Panicked {A}. Arguments Stuck {A}.
(** How a block ends *)
Inductive signal := Next | Break | Return.

Section Run.
  Variable X : gext.
  (** [fmt.Sprintf], [durationFromString] and [durationToString] *)
  Variable printed : str -> list (rv (g_time X)) -> str.
  Variable duration_from : str -> option Z.
  Variable duration_to : Z -> str.
  (** The structures, functions and variables (the regular expressions) of the package *)
  Variable structs : list (str * list (str * gtype)).
  Variable functions : list gfunction.
  Variable globals : list (str * str).

  Notation val := (rv (g_time X)).
  Definition memory := list val.
  Definition act (A : Type) := memory -> out (A * memory).
  Definition done {A} (a : A) : act A := fun H => Out (a, H).
  Definition panics {A} : act A := fun _ => Panicked.
  Definition stuck {A} : act A := fun _ => Stuck.
  Definition andthen {A B} (m : act A) (f : A -> act B) : act B :=
    fun H => match m H with Out (a, H') => f a H' | Panicked => Panicked | Stuck => Stuck end.
  Notation "'let*' x := m 'in' f" := (andthen m (fun x => f)) (at level 200, x pattern).
  Definition given {A} (o : option A) : act A := match o with Some a => done a | None => stuck end.

  (** A new cell *)
  Definition alloc (v : val) : act nat := fun H => Out (length H, H ++ [v]).
  Definition load (l : place) : act val :=
    fun H => given (match nth_error H (fst l) with Some v => part (snd l) v | None => None end) H.
  Definition store (l : place) (w : val) : act unit :=
    fun H => match nth_error H (fst l) with
             | Some v => match with_part (snd l) w v with Some v' => Out (tt, replace (fst l) v' H) | None => Stuck end
             | None => Stuck
             end.
  Definition entries_at (a : nat) : act (list (str * val)) := let* v := load (a, []) in match v with REntries l => done l | _ => stuck end.
  Definition items_at (a : nat) : act (list val) := let* v := load (a, []) in match v with RItems l => done l | _ => stuck end.

  (** * Operators *)

  Definition decides (o : order) (c : option comparison) : bool :=
    match o, c with
    | IsLess, Some Lt | IsAtMost, Some Lt | IsAtMost, Some Eq | IsGreater, Some Gt | IsAtLeast, Some Gt | IsAtLeast, Some Eq => true
    | _, _ => false
    end.
  (** A constant is converted to the type of the other operand. *)
  Definition compared (v w : val) : option (option comparison) :=
    match v, w with
    | RInt x, RInt y => Some (Some (Z.compare x y))
    | RFloat f, RInt m => Some (float_cmp f m)
    | _, _ => None
    end.
  (** Whether two floats have the same value, with infinities; NaN is equal to nothing *)
  Definition as_fraction (f : spec_float) : Z * Z :=
    match f with S754_finite s m e => (if s then Zneg m else Zpos m, e) | _ => (0%Z, 0%Z) end.
  Definition same_number (f g : spec_float) : bool :=
    match f, g with
    | S754_nan, _ | _, S754_nan => false
    | S754_infinity s, S754_infinity t => Bool.eqb s t
    | S754_infinity _, _ | _, S754_infinity _ => false
    | _, _ =>
        let (m, e) := as_fraction f in let (m', e') := as_fraction g in let k := Z.min e e' in
        (m * 2 ^ (e - k) =? m' * 2 ^ (e' - k))%Z
    end.
  Definition equals (v w : val) : option bool :=
    match v, w with
    | RNil, RNil => Some true
    | RNil, (RZone _ | RError _ | RPointer _ | RMap _ | RSlice _) | (RZone _ | RError _ | RPointer _ | RMap _ | RSlice _), RNil => Some false
    | RStr x, RStr y => Some (str_eqb x y)
    | RFloat x, RFloat y => Some (same_number x y)
    | _, _ => None
    end.
  (** [math.Trunc]: a number with the same value *)
  Definition truncated (f : spec_float) : spec_float :=
    match f with
    | S754_finite s _ _ =>
        match trunc_Z f with
        | Z0 => S754_zero s
        | Zpos m => S754_finite false m 0
        | Zneg m => S754_finite true m 0
        end
    | _ => f
    end.
  (** Whether the dynamic type of a value of an interface is [t] *)
  Definition has_type (v : val) (t : gtype) : bool :=
    match v, t with
    | RBool _, GBool | RFloat _, GFloat64 | RStr _, GString | RMap _, S_GoTyping.GMap GAny | RSlice _, GSlice GAny => true
    | _, _ => false
    end.
  (** The zero value of a type; the depth of structures within structures is limited by [n]. *)
  Fixpoint zero (n : nat) (t : gtype) : option val :=
    match n with
    | O => None
    | S n =>
        match t with
        | GBool => Some (RBool false)
        | GInt | GInt64 => Some (RInt 0)
        | GFloat64 => Some (RFloat (S754_zero false))
        | GString => Some (RStr [])
        | GNamed x =>
            if str_eqb x (s_ "time.Duration") then Some (RDuration 0)
            else match lookup x structs with
                 | Some fields =>
                     match fold_right (fun ft acc => match zero n (snd ft), acc with Some z, Some l => Some ((fst ft, z) :: l) | _, _ => None end)
                                      (Some []) fields with
                     | Some l => Some (RStruct l)
                     | None => None
                     end
                 | None => Some RZero
                 end
        | _ => Some RNil
        end
    end.
  (** The items of a slice of strings *)
  Definition texts (l : list val) : option (list str) :=
    fold_right (fun v acc => match v, acc with RStr s, Some ss => Some (s :: ss) | _, _ => None end) (Some []) l.
  Fixpoint join (sep : str) (l : list str) : str :=
    match l with
    | [] => []
    | [x] => x
    | x :: l' => x ++ sep ++ join sep l'
    end.

  (** A field of a structure or of what a pointer leads to *)
  Definition field_value (v : val) (f : str) : act val :=
    match v with
    | RPointer l => load (fst l, snd l ++ [AtField f])
    | RStruct l => given (lookup f l)
    | RNil => panics
    | _ => stuck
    end.
  (** The entry of a map *)
  Definition entry (v k : val) : act (option val) :=
    match v, k with
    | RMap a, RStr k => let* l := entries_at a in done (lookup k l)
    | RNil, RStr k => done None
    | _, _ => stuck
    end.
  Definition at_index (v i : val) : act val :=
    match v, i with
    | RSlice a, RInt i =>
        let* l := items_at a in
        if (0 <=? i)%Z then match nth_error l (Z.to_nat i) with Some x => done x | None => panics end else panics
    | _, _ => let* e := entry v i in done (match e with Some x => x | None => RNil end)
    end.
  Definition size (v : val) : act val :=
    match v with
    | RNil => done (RInt 0)
    | RSlice a => let* l := items_at a in done (RInt (Z.of_nat (length l)))
    | RMap a => let* l := entries_at a in done (RInt (Z.of_nat (length l)))
    | _ => stuck
    end.
  (** What [range] goes through *)
  Definition ranged (v : val) : act (list (val * val)) :=
    match v with
    | RNil => done []
    | RSlice a => let* l := items_at a in done (combine (map (fun i => RInt (Z.of_nat i)) (List.seq 0 (length l))) l)
    | RMap a => let* l := entries_at a in done (map (fun kv => (RStr (fst kv), snd kv)) l)
    | _ => stuck
    end.

  Definition method (v : val) (m : str) (args : list val) : act val :=
    match v, args with
    | RTime t, [RStr layout] => if str_eqb m (s_ "Format") then done (RStr (g_time_format X layout t)) else stuck
    | RZone s, [] => if str_eqb m (s_ "String") then done (RStr s) else stuck
    | RNil, [] => if str_eqb m (s_ "String") then done (RStr (s_ "UTC")) else stuck     (* of a [*time.Location] *)
    | RRegexp p, [RStr s] => if str_eqb m (s_ "MatchString") then done (RBool (g_match X p s)) else stuck
    | RError text, [] => if str_eqb m (s_ "Error") then done (RStr text) else stuck
    | RPointer l, _ =>
        let* e := load l in
        match e, args with
        | RErrors e, [RStr ref; RStr text] =>
            if str_eqb m (s_ "Add") then let* _ := store l (RErrors (go_add e (ref, text))) in done RNil else stuck
        | RErrors e, [] =>
            if str_eqb m (s_ "Full") then done (RBool (go_full e)) else if str_eqb m (s_ "Empty") then done (RBool (go_empty e)) else stuck
        | _, _ => stuck
        end
    | _, _ => stuck
    end.

  (** The functions of the libraries, and those for durations *)
  Definition library (f : str) (args : list val) : option (act (list val)) :=
    if str_eqb f (s_ "panic") then Some panics
    else if str_eqb f (s_ "math.Trunc") then Some (match args with [RFloat x] => done [RFloat (truncated x)] | _ => stuck end)
    else if str_eqb f (s_ "strings.Join") then
      Some (match args with
            | [RSlice a; RStr sep] => let* l := items_at a in let* ss := given (texts l) in done [RStr (join sep ss)]
            | _ => stuck
            end)
    else if str_eqb f (s_ "strconv.Itoa") then Some (match args with [RInt z] => done [RStr (dec_Z z)] | _ => stuck end)
    else if str_eqb f (s_ "fmt.Sprintf") then Some (match args with RStr format :: rest => done [RStr (printed format rest)] | _ => stuck end)
    else if str_eqb f (s_ "fmt.Errorf") then Some (match args with RStr format :: rest => done [RError (printed format rest)] | _ => stuck end)
    else if str_eqb f (s_ "time.Parse") then
      Some (match args with
            | [RStr layout; RStr s] => done (match g_time_parse X layout s with Some t => [RTime t; RNil] | None => [RZero; RError (s_ "time.Parse")] end)
            | _ => stuck
            end)
    else if str_eqb f (s_ "time.LoadLocation") then
      Some (match args with [RStr s] => done (match g_load X s with Some z => [RZone z; RNil] | None => [RNil; RError (s_ "time.LoadLocation")] end) | _ => stuck end)
    else if str_eqb f (s_ "durationFromString") then
      Some (match args with [RStr s] => done (match duration_from s with Some d => [RDuration d; RNil] | None => [RDuration 0; RError (s_ "duration")] end) | _ => stuck end)
    else if str_eqb f (s_ "durationToString") then Some (match args with [RDuration d] => done [RStr (duration_to d)] | _ => stuck end)
    else None.

  (** The variables are declared. *)
  Fixpoint declare (xs : list (option thing)) (vs : list val) (r : scope) : act scope :=
    match xs, vs with
    | [], [] => done r
    | Some x :: xs', v :: vs' => let* a := alloc v in declare xs' vs' ((x, a) :: r)
    | None :: xs', _ :: vs' => declare xs' vs' r
    | _, _ => stuck
    end.
  Fixpoint all_loaded (r : scope) (xs : list thing) : act (list val) :=
    match xs with
    | [] => done []
    | x :: xs' => let* a := given (cell_of r x) in let* v := load (a, []) in let* vs := all_loaded r xs' in done (v :: vs)
    end.
  Fixpoint all_zero (n : nat) (ts : list gtype) : option (list val) :=
    match ts with
    | [] => Some []
    | t :: ts' => match zero n t, all_zero n ts' with Some z, Some l => Some (z :: l) | _, _ => None end
    end.

  (** * Running *)

  Fixpoint eval (n : nat) (r : scope) (e : gexpr) {struct n} : act val :=
    match n with
    | O => stuck
    | S n =>
        match e with
        | XVar x => let* a := given (cell_of r x) in load (a, [])
        | XGlobal x => let* p := given (lookup x globals) in done (RRegexp p)
        | XField e f => let* v := eval n r e in field_value v f
        | XIndex e i => let* v := eval n r e in let* i := eval n r i in at_index v i
        | XDeref e => let* v := eval n r e in match v with RPointer l => load l | RNil => panics | _ => stuck end
        | XAddr e => let* l := place_of n r e in done (RPointer l)
        | XText x => done (RStr x)
        | XNumber z => done (RInt z)
        | XNil => done RNil
        | XCall f args => let* vs := arguments n r args in let* l := call n f vs in match l with [v] => done v | _ => stuck end
        | XMethod e m args => let* v := eval n r e in let* vs := arguments n r args in method v m vs
        | XLen e => let* v := eval n r e in size v
        | XAssert e t => let* v := eval n r e in if has_type v t then done v else panics
        | XConvert t e => let* v := eval n r e in match t, v with GInt64, RFloat f => done (RInt (trunc_Z f)) | _, _ => stuck end
        | XMake t count =>
            match t, count with
            | S_GoTyping.GMap _, None => let* a := alloc (REntries []) in done (RMap a)
            | GSlice t, Some count =>
                let* c := eval n r count in
                match c with
                | RInt c => if (c <? 0)%Z then panics else let* z := given (zero n t) in let* a := alloc (RItems (repeat z (Z.to_nat c))) in done (RSlice a)
                | _ => stuck
                end
            | _, _ => stuck
            end
        | XNew s => let* z := given (zero n (GNamed s)) in let* a := alloc z in done (RPointer (a, []))
        | XStrings l => let* vs := arguments n r l in let* a := alloc (RItems vs) in done (RSlice a)
        | XConcat a b => let* v := eval n r a in let* w := eval n r b in match v, w with RStr x, RStr y => done (RStr (x ++ y)) | _, _ => stuck end
        | XNot e => let* v := eval n r e in match v with RBool b => done (RBool (negb b)) | _ => stuck end
        | XOr a b => let* v := eval n r a in match v with RBool true => done (RBool true) | RBool false => eval n r b | _ => stuck end
        | XEqual o a b =>
            let* v := eval n r a in let* w := eval n r b in let* t := given (equals v w) in
            done (RBool (match o with IsEqual => t | IsUnequal => negb t end))
        | XOrder o a b => let* v := eval n r a in let* w := eval n r b in let* c := given (compared v w) in done (RBool (decides o c))
        end
    end
  (** The place of an expression *)
  with place_of (n : nat) (r : scope) (e : gexpr) {struct n} : act place :=
    match n with
    | O => stuck
    | S n =>
        match e with
        | XVar x => let* a := given (cell_of r x) in done (a, [])
        | XField e f =>
            let* v := eval n r e in
            match v with
            | RPointer l => done (fst l, snd l ++ [AtField f])
            | RNil => panics
            | _ => let* l := place_of n r e in done (fst l, snd l ++ [AtField f])
            end
        | XIndex e i =>
            let* v := eval n r e in let* i := eval n r i in
            match v, i with
            | RSlice a, RInt i => let* _ := at_index v (RInt i) in done (a, [AtIndex (Z.to_nat i)])
            | _, _ => stuck
            end
        | XDeref e => let* v := eval n r e in match v with RPointer l => done l | RNil => panics | _ => stuck end
        | _ => stuck
        end
    end
  with arguments (n : nat) (r : scope) (l : list gexpr) {struct n} : act (list val) :=
    match n with
    | O => stuck
    | S n =>
        match l with
        | [] => done []
        | e :: l' => let* v := eval n r e in let* vs := arguments n r l' in done (v :: vs)
        end
    end
  with call (n : nat) (f : str) (vs : list val) {struct n} : act (list val) :=
    match n with
    | O => stuck
    | S n =>
        match library f vs with
        | Some m => m
        | None =>
            let* fn := given (find (fun fn => str_eqb (gf_name fn) f) functions) in
            let* zs := given (all_zero n (map snd (gf_results fn))) in
            let* r := declare (map (fun p => Some (fst p)) (gf_params fn)) vs [] in
            let* r := declare (map (fun p => Some (fst p)) (gf_results fn)) zs r in
            let* _ := exec n r (gf_body fn) in
            all_loaded r (map fst (gf_results fn))
        end
    end
  (** The value of [e], or the two values of the special forms *)
  with values (n : nat) (r : scope) (e : gexpr) (count : nat) {struct n} : act (list val) :=
    match n with
    | O => stuck
    | S n =>
        match count with
        | 1 => let* v := eval n r e in done [v]
        | _ =>
            match e with
            | XCall f args => let* vs := arguments n r args in call n f vs
            | XAssert e t =>
                let* v := eval n r e in
                if has_type v t then done [v; RBool true] else let* z := given (zero n t) in done [z; RBool false]
            | XIndex e i =>
                let* v := eval n r e in let* i := eval n r i in let* x := entry v i in
                done (match x with Some x => [x; RBool true] | None => [RNil; RBool false] end)
            | _ => stuck
            end
        end
    end
  (** The value is assigned. *)
  with assign (n : nat) (r : scope) (e : gexpr) (v : val) {struct n} : act unit :=
    match n with
    | O => stuck
    | S n =>
        match e with
        | XIndex m k =>
            let* mv := eval n r m in
            match mv with
            | RMap a => let* k := eval n r k in match k with RStr k => let* l := entries_at a in store (a, []) (REntries (upsert k v l)) | _ => stuck end
            | RNil => panics
            | _ => let* l := place_of n r e in store l v
            end
        | _ => let* l := place_of n r e in store l v
        end
    end
  with assigns (n : nat) (r : scope) (es : list gexpr) (vs : list val) {struct n} : act unit :=
    match n with
    | O => stuck
    | S n =>
        match es, vs with
        | [], [] => done tt
        | e :: es', v :: vs' => let* _ := assign n r e v in assigns n r es' vs'
        | _, _ => stuck
        end
    end
  with exec (n : nat) (r : scope) (ss : list gstmt) {struct n} : act signal :=
    match n with
    | O => stuck
    | S n =>
        match ss with
        | [] => done Next
        | SVar x t :: rest => let* z := given (zero n t) in let* a := alloc z in exec n ((x, a) :: r) rest
        | SDefine xs e :: rest => let* vs := values n r e (length xs) in let* r' := declare xs vs r in exec n r' rest
        | SAssign es e :: rest => let* vs := values n r e (length es) in let* _ := assigns n r es vs in exec n r rest
        | SDo e :: rest =>
            let* _ := match e with
                      | XCall f args => let* vs := arguments n r args in let* _ := call n f vs in done tt
                      | _ => let* _ := eval n r e in done tt
                      end in
            exec n r rest
        | SIf e b c :: rest =>
            let* v := eval n r e in
            match v with
            | RBool t => let* s := exec n r (if t then b else c) in match s with Next => exec n r rest | _ => done s end
            | _ => stuck
            end
        | SRange k x e b :: rest =>
            let* v := eval n r e in let* l := ranged v in let* s := ranging n r k x b l in
            match s with Return => done Return | _ => exec n r rest end
        | SFor i e b :: rest =>
            let* a := alloc (RInt 0) in let* s := looping n ((i, a) :: r) a e b in
            match s with Return => done Return | _ => exec n r rest end
        | SDefer b :: rest => let* s := exec n r rest in let* _ := exec n r b in done s
        | SBreak :: _ => done Break
        | SReturn :: _ => done Return
        end
    end
  with ranging (n : nat) (r : scope) (k : thing) (x : option thing) (b : list gstmt) (l : list (val * val)) {struct n} : act signal :=
    match n with
    | O => stuck
    | S n =>
        match l with
        | [] => done Next
        | (key, v) :: l' =>
            let* r' := declare [Some k; x] [key; v] r in let* s := exec n r' b in
            match s with Next => ranging n r k x b l' | Break => done Next | Return => done Return end
        end
    end
  with looping (n : nat) (r : scope) (a : nat) (e : gexpr) (b : list gstmt) {struct n} : act signal :=
    match n with
    | O => stuck
    | S n =>
        let* t := eval n r e in
        match t with
        | RBool false => done Next
        | RBool true =>
            let* s := exec n r b in
            match s with
            | Next => let* i := load (a, []) in
                      match i with RInt i => let* _ := store (a, []) (RInt (i + 1)) in looping n r a e b | _ => stuck end
            | Break => done Next
            | Return => done Return
            end
        | _ => stuck
        end
    end.
End Run.
