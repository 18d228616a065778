(** Running the generated Go parsers: values. *)
From Coq Require Import String List Arith NArith ZArith Bool Lia Floats.SpecFloat.
From Verif Require Import Base M_Naming M_Errors M_Schema M_Dec M_Num M_TypeGraph M_Walk M_Strftime M_Duration M_GoImports M_GoGen M_AutoID S_Scope M_Scope M_GoScope
  S_Conform S_Common S_GoGen P_Common P_GoBase P_AutoID P_Scope P_BlockScope P_GoScope
  S_Compare S_GoTyping M_GoTyping P_GoTyping.
From Verif Require Import S_GoRun S_GoMemory P_GoRun.
Import ListNotations.
Open Scope list_scope.
Local Open Scope nat_scope.

(** * Numbers *)
Lemma same_truncated f : same_number f (truncated f) = is_trunc f.
Proof.
  destruct f as [s|s| |s m e]; try reflexivity; [now destruct s|].
  unfold is_trunc, truncated. set (z := trunc_Z (S754_finite s m e)). cbn [cmp_float_Z].
  set (N := if s then Zneg m else Zpos m).
  assert (EF : forall g, (let (m', e') := as_fraction g in (m', e')) = (z, 0%Z) -> same_number (S754_finite s m e) g = (N * 2 ^ (e - Z.min e 0) =? z * 2 ^ (0 - Z.min e 0))%Z \/
    match g with S754_finite _ _ _ | S754_zero _ => False | _ => True end).
  { intros g Eg. destruct g as [t|t| |t m' e']; auto; left; cbn in Eg |- *; injection Eg as <-; try subst e'; reflexivity. }
  assert (ES : same_number (S754_finite s m e) (match z with Z0 => S754_zero s | Zpos p => S754_finite false p 0 | Zneg p => S754_finite true p 0 end) =
               (N * 2 ^ (e - Z.min e 0) =? z * 2 ^ (0 - Z.min e 0))%Z).
  { destruct z as [|p|p] eqn:Ez.
    - destruct (EF (S754_zero s) eq_refl) as [E|[]]. exact E.
    - destruct (EF (S754_finite false p 0) eq_refl) as [E|[]]. exact E.
    - destruct (EF (S754_finite true p 0) eq_refl) as [E|[]]. exact E. }
  rewrite ES. clear EF ES. destruct (Z.leb_spec 0 e).
  - rewrite Z.min_r, !Z.sub_0_r by lia. cbn [Z.sub Z.opp Z.add]. rewrite Z.pow_0_r, Z.mul_1_r, Z.eqb_compare. now destruct (N * 2 ^ e ?= z)%Z.
  - rewrite Z.min_l, Z.sub_diag, Z.pow_0_r, Z.mul_1_r, Z.sub_0_l, Z.eqb_compare by lia. now destruct (N ?= z * 2 ^ (- e))%Z.
Qed.

(** * JSON values in the memory *)
Section Json.
  Context {T : Type}.
  Notation mem := (list (rv T)).
  Definition entries_in (H : mem) (W : list nat) (js : list (str * jval)) (ws : list (str * rv T)) : Prop :=
    Forall2 (fun x y => fst x = fst y /\ json_in H W (snd x) (snd y)) js ws.
  Lemma json_arr (H : mem) W js v : json_in H W (JArr js) v <->
    exists a ws, v = RSlice a /\ ~ In a W /\ nth_error H a = Some (RItems ws) /\ Forall2 (json_in H W) js ws.
  Proof.
    cbn [json_in]. split; intros (a & ws & E1 & E2 & E3 & HA); exists a, ws; (split; [exact E1|split; [exact E2|split; [exact E3|]]]); clear - HA; revert ws HA;
      induction js as [|j js IH]; intros [|w ws] HA; try easy.
    - destruct HA as [H1 H2]. constructor; [exact H1|now apply IH].
    - inversion HA; subst. split; [assumption|]. now apply IH.
  Qed.
  Lemma json_obj (H : mem) W js v : json_in H W (JObj js) v <->
    exists a ws, v = RMap a /\ ~ In a W /\ nth_error H a = Some (REntries ws) /\ NoDup (keys js) /\ entries_in H W js ws.
  Proof.
    cbn [json_in]. split; intros (a & ws & E1 & E2 & E3 & E4 & HA); exists a, ws; (split; [exact E1|split; [exact E2|split; [exact E3|split; [exact E4|]]]]); clear - HA; revert ws HA;
      induction js as [|[k j] js IH]; intros [|[k' w] ws] HA; try easy; try (now constructor).
    - destruct HA as (H1 & H2 & H3). constructor; [split; assumption|]. now apply IH.
    - inversion HA as [|? ? ? ? [E HR] HF]; subst. split; [exact E|split; [exact HR|]]. now apply IH.
  Qed.
  Lemma entries_lookup (H : mem) W js ws k : entries_in H W js ws ->
    match lookup k js with
    | Some j => exists w, lookup k ws = Some w /\ json_in H W j w
    | None => lookup k ws = None
    end.
  Proof.
    intros HE. induction HE as [|[k1 j] [k2 w] js ws [E HJ] HE IH]; [reflexivity|]. cbn in E. subst k2. cbn [lookup].
    destruct (str_eqb k k1); [exists w; now split|exact IH].
  Qed.
  Lemma entries_keys (H : mem) W js ws : entries_in H W js ws -> keys ws = keys js.
  Proof. intros HE. induction HE as [|[k1 j] [k2 w] js ws [E _] _ IH]; [reflexivity|]. cbn in E. unfold keys in *. cbn. now rewrite IH, E. Qed.
  Lemma json_kind (H : mem) W j v : json_in H W j v -> kind v = Some (gtype_of j).
  Proof.
    destruct j; try (intros E; cbn in E; subst; reflexivity).
    - rewrite json_arr. intros (a & ws & -> & _). reflexivity.
    - rewrite json_obj. intros (a & ws & -> & _). reflexivity.
  Qed.
End Json.

(** * Parts of values *)
Section Parts.
  Context {T : Type}.
  Lemma lookup_replace_nth {A} (l : list A) i x : i < length l -> nth_error (replace i x l) i = Some x.
  Proof. apply nth_replace_same. Qed.
  Lemma replace_replace {A} (x y : A) l : forall i, replace i x (replace i y l) = replace i x l.
  Proof. induction l as [|z l IH]; intros [|i]; cbn; [reflexivity..|]. now rewrite IH. Qed.
  Lemma upsert_upsert {A} k (x y : A) l : upsert k x (upsert k y l) = upsert k x l.
  Proof.
    induction l as [|[k' z] l IH]; cbn; [now rewrite str_eqb_refl|]. destruct (str_eqb k k') eqn:E; cbn; [now rewrite str_eqb_refl|]. now rewrite E, IH.
  Qed.
  Lemma part_put path : forall v u v' : rv T, with_part path u v = Some v' -> part path v' = Some u.
  Proof.
    induction path as [|[f|i] path IH]; intros v u v' E; cbn in *; [congruence|..].
    - destruct v as [| | | | | | | | | | | | |l| | | |]; try discriminate. destruct (lookup f l) as [w|]; [|discriminate]. destruct (with_part path u w) as [w'|] eqn:Ew; [|discriminate].
      injection E as <-. rewrite lookup_upsert_eq. now apply (IH w).
    - destruct v as [| | | | | | | | | | | | | | | |l|]; try discriminate. destruct (nth_error l i) as [w|] eqn:En; [|discriminate]. destruct (with_part path u w) as [w'|] eqn:Ew; [|discriminate].
      injection E as <-. rewrite nth_replace_same by now apply nth_some_lt in En. now apply (IH w).
  Qed.
  Lemma put_put path : forall v u u' v' : rv T, with_part path u v = Some v' -> with_part path u' v' = with_part path u' v.
  Proof.
    induction path as [|[f|i] path IH]; intros v u u' v' E; cbn in *; [reflexivity|..].
    - destruct v as [| | | | | | | | | | | | |l| | | |]; try discriminate. destruct (lookup f l) as [w|]; [|discriminate]. destruct (with_part path u w) as [w'|] eqn:Ew; [|discriminate].
      injection E as <-. rewrite lookup_upsert_eq, (IH w u u' w' Ew). destruct (with_part path u' w); [|reflexivity]. now rewrite upsert_upsert.
    - destruct v as [| | | | | | | | | | | | | | | |l|]; try discriminate. destruct (nth_error l i) as [w|] eqn:En; [|discriminate]. destruct (with_part path u w) as [w'|] eqn:Ew; [|discriminate].
      injection E as <-. rewrite nth_replace_same by now apply nth_some_lt in En. rewrite (IH w u u' w' Ew). destruct (with_part path u' w); [|reflexivity]. now rewrite replace_replace.
  Qed.
  Lemma put_exists path : forall v s : rv T, part path v = Some s -> exists put, forall u, with_part path u v = Some (put u).
  Proof.
    induction path as [|[f|i] path IH]; intros v s E; cbn in *; [now exists (fun u => u)|..].
    - destruct v as [| | | | | | | | | | | | |l| | | |]; try discriminate. destruct (lookup f l) as [w|]; [|discriminate]. destruct (IH w s E) as [put Hp].
      exists (fun u => RStruct (upsert f (put u) l)). intros u. now rewrite Hp.
    - destruct v as [| | | | | | | | | | | | | | | |l|]; try discriminate. destruct (nth_error l i) as [w|] eqn:En; [|discriminate]. destruct (IH w s E) as [put Hp].
      exists (fun u => RItems (replace i (put u) l)). intros u. now rewrite Hp.
  Qed.
  (** A field of a part *)
  Lemma put_field path f u ws : forall v : rv T, part path v = Some (RStruct ws) -> (exists w, lookup f ws = Some w) ->
    with_part (path ++ [AtField f]) u v = with_part path (RStruct (upsert f u ws)) v.
  Proof.
    intros v E [w Ew]. revert v E. induction path as [|[g|i] path IH]; intros v E; cbn in *.
    - injection E as ->. now rewrite Ew.
    - destruct v as [| | | | | | | | | | | | |l| | | |]; try discriminate. destruct (lookup g l) as [w'|]; [|discriminate]. now rewrite (IH w' E).
    - destruct v as [| | | | | | | | | | | | | | | |l|]; try discriminate. destruct (nth_error l i) as [w'|] eqn:En; [|discriminate]. now rewrite (IH w' E).
  Qed.
End Parts.

(** * More rules *)
Section Rules.
  Variable X : gext.
  Variable printed : str -> list (rv (g_time X)) -> str.
  Variable duration_from : str -> option Z.
  Variable duration_to : Z -> str.
  Variable structs : list (str * list (str * gtype)).
  Variable functions : list gfunction.
  Variable globals : list (str * str).
  Notation val := (rv (g_time X)).
  Notation mem := (memory X).
  Notation eval := (eval X printed duration_from duration_to structs functions globals).
  Notation place_of := (place_of X printed duration_from duration_to structs functions globals).
  Notation arguments := (arguments X printed duration_from duration_to structs functions globals).
  Notation called := (S_GoRun.call X printed duration_from duration_to structs functions globals).
  Notation values := (values X printed duration_from duration_to structs functions globals).
  Notation assign := (assign X printed duration_from duration_to structs functions globals).
  Notation exec := (exec X printed duration_from duration_to structs functions globals).
  Notation ranging := (ranging X printed duration_from duration_to structs functions globals).
  Notation library := (library X printed duration_from duration_to).
  Notation zero := (zero X structs).
  Notation ev := (ev X).
  Notation evals r H e o := (ev (fun n => eval n r e) H o).
  Notation places r H e o := (ev (fun n => place_of n r e) H o).
  Notation runs r H ss o := (ev (fun n => exec n r ss) H o).
  Ltac one := eapply ev_step; [intros ?; cbn; reflexivity|].
  Ltac next := eapply ev_bind; [|cbn beta iota].
  Ltac const := apply ev_const; cbn; reflexivity.

  Definition zero_is (t : gtype) (z : val) : Prop := exists n0, forall n, n0 <= n -> zero n t = Some z.

  Lemma eval_not r H H' e b : evals r H e (Out (RBool b, H')) -> evals r H (XNot e) (Out (RBool (negb b), H')).
  Proof. intros E. one. next; [exact E|]. const. Qed.
  Lemma eval_or r H H1 H2 a b x y : evals r H a (Out (RBool x, H1)) -> (x = false -> evals r H1 b (Out (RBool y, H2))) -> (x = true -> H1 = H2) -> evals r H (XOr a b) (Out (RBool (x || y), H2)).
  Proof. intros E1 E2 E3. one. next; [exact E1|]. destruct x; cbn beta iota; [rewrite E3 by reflexivity; const|now apply E2]. Qed.
  Lemma eval_convert r H H' e f : evals r H e (Out (RFloat f, H')) -> evals r H (XConvert GInt64 e) (Out (RInt (trunc_Z f), H')).
  Proof. intros E. one. next; [exact E|]. const. Qed.
  Lemma eval_strings r H H' l vs : ev (fun n => arguments n r l) H (Out (vs, H')) -> evals r H (XStrings l) (Out (RSlice (length H'), H' ++ [RItems vs])).
  Proof. intros E. one. next; [exact E|]. const. Qed.
  Lemma eval_concat r H H1 H2 a b x y : evals r H a (Out (RStr x, H1)) -> evals r H1 b (Out (RStr y, H2)) -> evals r H (XConcat a b) (Out (RStr (x ++ y), H2)).
  Proof. intros E1 E2. one. next; [exact E1|]. next; [exact E2|]. const. Qed.
  Lemma eval_global r H x p : lookup x globals = Some p -> evals r H (XGlobal x) (Out (RRegexp p, H)).
  Proof. intros E. one. rewrite E. const. Qed.
  Lemma eval_new r H s z : zero_is (GNamed s) z -> evals r H (XNew s) (Out (RPointer (length H, []), H ++ [z])).
  Proof.
    intros [n0 Hz]. eapply ev_step; [intros n; cbn - [S_GoRun.zero]; reflexivity|]. eapply ev_bind with (a := z) (H' := H).
    - exists n0. intros n L. rewrite (Hz n L). reflexivity.
    - const.
  Qed.
  Lemma eval_make_items r H H' t z count c : zero_is t z -> evals r H count (Out (RInt (Z.of_nat c), H')) ->
    evals r H (XMake (GSlice t) (Some count)) (Out (RSlice (length H'), H' ++ [RItems (repeat z c)])).
  Proof.
    intros [n0 Hz] E. assert (EZ : (Z.of_nat c <? 0)%Z = false) by (apply Z.ltb_ge; lia). eapply ev_step; [intros n; cbn - [S_GoRun.zero]; reflexivity|]. next; [exact E|]. cbn beta iota. rewrite EZ, Nat2Z.id.
    eapply ev_bind with (a := z) (H' := H'); [exists n0; intros n L; rewrite (Hz n L); reflexivity|]. const.
  Qed.

  Lemma values_assert r H H' e t v : evals r H e (Out (v, H')) -> has_type X v t = true -> ev (fun n => values n r (XAssert e t) 2) H (Out ([v; RBool true], H')).
  Proof. intros E1 E2. eapply ev_step; [intros n; cbn; reflexivity|]. next; [exact E1|]. rewrite E2. const. Qed.
  Lemma values_no_assert r H H' e t v z : evals r H e (Out (v, H')) -> has_type X v t = false -> zero_is t z -> ev (fun n => values n r (XAssert e t) 2) H (Out ([z; RBool false], H')).
  Proof.
    intros E1 E2 [n0 Hz]. eapply ev_step; [intros n; cbn - [S_GoRun.zero]; reflexivity|]. next; [exact E1|]. rewrite E2.
    eapply ev_bind with (a := z) (H' := H'); [exists n0; intros n L; rewrite (Hz n L); reflexivity|]. const.
  Qed.
  Lemma values_index r H H1 H2 e i v w x : evals r H e (Out (v, H1)) -> evals r H1 i (Out (w, H2)) -> entry X v w H2 = Out (x, H2) ->
    ev (fun n => values n r (XIndex e i) 2) H (Out (match x with Some x => [x; RBool true] | None => [RNil; RBool false] end, H2)).
  Proof. intros E1 E2 E3. eapply ev_step; [intros n; cbn; reflexivity|]. next; [exact E1|]. next; [exact E2|]. next; [apply ev_const; exact E3|]. const. Qed.
  Lemma values_call r H H1 f l vs o : ev (fun n => arguments n r l) H (Out (vs, H1)) -> ev (fun n => called n f vs) H1 o -> ev (fun n => values n r (XCall f l) 2) H o.
  Proof. intros E1 E2. eapply ev_step; [intros n; cbn; reflexivity|]. next; [exact E1|]. exact E2. Qed.
  Lemma run_define2 r H H' x y e v w rest o : ev (fun n => values n r e 2) H (Out ([v; w], H')) -> runs ((y, S (length H')) :: (x, length H') :: r) (H' ++ [v; w]) rest o ->
    runs r H (SDefine [Some x; Some y] e :: rest) o.
  Proof.
    intros E1 E2. eapply ev_step; [intros n; cbn - [S_GoRun.values S_GoRun.exec]; reflexivity|]. next; [exact E1|].
    next; [apply ev_const; unfold declare, andthen, alloc, done; rewrite <- app_assoc, app_length, Nat.add_1_r; reflexivity|]. exact E2.
  Qed.
  Lemma run_define_second r H H' y e v w rest o : ev (fun n => values n r e 2) H (Out ([v; w], H')) -> runs ((y, length H') :: r) (H' ++ [w]) rest o ->
    runs r H (SDefine [None; Some y] e :: rest) o.
  Proof.
    intros E1 E2. eapply ev_step; [intros n; cbn - [S_GoRun.values S_GoRun.exec]; reflexivity|]. next; [exact E1|].
    next; [apply ev_const; reflexivity|]. exact E2.
  Qed.
  Lemma run_assign2 r H H1 H2 H3 t1 t2 e v w rest o : ev (fun n => values n r e 2) H (Out ([v; w], H1)) -> ev (fun n => assign n r t1 v) H1 (Out (tt, H2)) ->
    ev (fun n => assign n r t2 w) H2 (Out (tt, H3)) -> runs r H3 rest o -> runs r H (SAssign [t1; t2] e :: rest) o.
  Proof.
    intros E1 E2 E3 E4. eapply ev_step; [intros n; cbn - [S_GoRun.values S_GoRun.exec S_GoRun.assigns]; reflexivity|]. next; [exact E1|].
    next; [|exact E4]. one. next; [exact E2|]. one. next; [exact E3|]. one. const.
  Qed.
  Lemma run_var r H x t z rest o : zero_is t z -> runs ((x, length H) :: r) (H ++ [z]) rest o -> runs r H (SVar x t :: rest) o.
  Proof.
    intros [n0 Hz] E. eapply ev_step; [intros n; cbn - [S_GoRun.exec S_GoRun.zero]; reflexivity|]. eapply ev_bind with (a := z) (H' := H).
    - exists n0. intros n L. rewrite (Hz n L). reflexivity.
    - next; [apply ev_const; reflexivity|]. exact E.
  Qed.
  Lemma run_do r H H' e v rest o : (match e with XCall _ _ => False | _ => True end) -> evals r H e (Out (v, H')) -> runs r H' rest o -> runs r H (SDo e :: rest) o.
  Proof.
    intros He E1 E2. eapply ev_step; [intros n; cbn - [S_GoRun.exec S_GoRun.eval]; reflexivity|]. destruct e; try contradiction; (next; [next; [exact E1|]; const|]; exact E2).
  Qed.
  Lemma run_call r H H1 H2 f l vs us rest o : ev (fun n => arguments n r l) H (Out (vs, H1)) -> ev (fun n => called n f vs) H1 (Out (us, H2)) -> runs r H2 rest o -> runs r H (SDo (XCall f l) :: rest) o.
  Proof.
    intros E1 E2 E3. eapply ev_step; [intros n; cbn - [S_GoRun.exec S_GoRun.eval S_GoRun.arguments S_GoRun.call]; reflexivity|]. next; [next; [exact E1|]; next; [exact E2|]; const|]. exact E3.
  Qed.
  Lemma run_call_panics r H H1 f l vs rest : ev (fun n => arguments n r l) H (Out (vs, H1)) -> ev (fun n => called n f vs) H1 Panicked -> runs r H (SDo (XCall f l) :: rest) Panicked.
  Proof.
    intros E1 E2. eapply ev_step; [intros n; cbn - [S_GoRun.exec S_GoRun.eval S_GoRun.arguments S_GoRun.call]; reflexivity|]. apply ev_panic. next; [exact E1|]. now apply ev_panic.
  Qed.
  Lemma run_break r H rest : runs r H (SBreak :: rest) (Out (Break, H)). Proof. one. const. Qed.
  Lemma run_if_break r H H1 H2 e (t : bool) b c rest : evals r H e (Out (RBool t, H1)) -> runs r H1 (if t then b else c) (Out (Break, H2)) -> runs r H (SIf e b c :: rest) (Out (Break, H2)).
  Proof.
    intros E1 E2. eapply ev_step; [intros n; cbn - [S_GoRun.exec S_GoRun.eval]; reflexivity|]. next; [exact E1|]. cbn beta iota. next; [exact E2|]. const.
  Qed.
  Lemma range_key_break r H H1 k b key v l : runs ((k, length H) :: r) (H ++ [key]) b (Out (Break, H1)) ->
    ev (fun n => ranging n r k None b ((key, v) :: l)) H (Out (Next, H1)).
  Proof.
    intros E1. eapply ev_step; [intros n; cbn - [S_GoRun.exec S_GoRun.ranging]; reflexivity|].
    next; [apply ev_const; reflexivity|]. next; [exact E1|]. const.
  Qed.
  Lemma range_break r H H1 k x b key v l : runs ((x, S (length H)) :: (k, length H) :: r) (H ++ [key; v]) b (Out (Break, H1)) ->
    ev (fun n => ranging n r k (Some x) b ((key, v) :: l)) H (Out (Next, H1)).
  Proof.
    intros E1. eapply ev_step; [intros n; cbn - [S_GoRun.exec S_GoRun.ranging]; reflexivity|].
    next; [apply ev_const; unfold declare, andthen, alloc, done; rewrite <- app_assoc, app_length, Nat.add_1_r; reflexivity|]. next; [exact E1|]. const.
  Qed.
  Lemma assign_place r H H1 e l v0 v1 u : (match e with XIndex _ _ => False | _ => True end) -> places r H e (Out (l, H1)) -> nth_error H1 (fst l) = Some v0 -> with_part (snd l) u v0 = Some v1 ->
    ev (fun n => assign n r e u) H (Out (tt, replace (fst l) v1 H1)).
  Proof.
    intros He E1 E2 E3. eapply ev_step; [intros n; cbn - [S_GoRun.place_of S_GoRun.eval]; reflexivity|].
    destruct e; try contradiction; (next; [exact E1|]; apply ev_const; unfold store; rewrite E2, E3; reflexivity).
  Qed.
  Lemma entry_map (H : mem) a l k : nth_error H a = Some (REntries l) -> entry X (RMap a) (RStr k) H = Out (lookup k l, H).
  Proof. intros E. unfold entry, andthen. rewrite (entries_of X _ _ _ E). reflexivity. Qed.

  (** The arguments without effects *)
  Lemma args_all r H : forall l vs, Forall2 (fun e v => evals r H e (Out (v, H))) l vs -> ev (fun n => arguments n r l) H (Out (vs, H)).
  Proof. intros l vs HF. induction HF; [apply args_nil|]. eapply args_cons; eassumption. Qed.
  Lemma args_more r H H' l2 vs2 : ev (fun n => arguments n r l2) H (Out (vs2, H')) -> forall l vs, Forall2 (fun e v => evals r H e (Out (v, H))) l vs ->
    ev (fun n => arguments n r (l ++ l2)) H (Out (vs ++ vs2, H')).
  Proof. intros E l vs HF. induction HF; [exact E|]. cbn [app]. eapply args_cons; eassumption. Qed.

  (** The methods of the errors *)
  Lemma eval_full r H ec ers : evals r H (ow "errors") (Out (RPointer (ec, []), H)) -> nth_error H ec = Some (RErrors ers) -> evals r H (meth (ow "errors") "Full" []) (Out (RBool (go_full ers), H)).
  Proof.
    intros E1 E2. eapply eval_method; [exact E1|apply args_nil|]. unfold method, andthen. rewrite (load_at X _ _ _ E2). reflexivity.
  Qed.
  Lemma eval_empty r H ec ers : evals r H (ow "errors") (Out (RPointer (ec, []), H)) -> nth_error H ec = Some (RErrors ers) -> evals r H (meth (ow "errors") "Empty" []) (Out (RBool (go_empty ers), H)).
  Proof.
    intros E1 E2. eapply eval_method; [exact E1|apply args_nil|]. unfold method, andthen. rewrite (load_at X _ _ _ E2). reflexivity.
  Qed.
  Lemma run_add r H H1 ec ers ref text a b rest o : evals r H (ow "errors") (Out (RPointer (ec, []), H)) ->
    ev (fun n => arguments n r [a; b]) H (Out ([RStr ref; RStr text], H1)) -> nth_error H1 ec = Some (RErrors ers) ->
    runs r (replace ec (RErrors (go_add ers (ref, text))) H1) rest o -> runs r H (SDo (meth (ow "errors") "Add" [a; b]) :: rest) o.
  Proof.
    intros E1 E2 E3 E4. eapply run_do; [exact I| |exact E4]. eapply eval_method; [exact E1|exact E2|]. unfold method, andthen. rewrite (load_at X _ _ _ E3). cbn.
    unfold store, andthen, done. cbn [fst snd]. rewrite E3. reflexivity.
  Qed.
End Rules.
