(** Running the generated Go functions: the rules, and the memory. *)
From Coq Require Import String List Arith NArith ZArith Bool Lia Floats.SpecFloat.
From Verif Require Import Base M_Naming M_Schema M_Dec M_Strftime M_GoGen M_AutoID S_Scope M_Scope M_GoScope P_Common P_AutoID P_Scope P_BlockScope P_GoScope
  S_Compare S_GoTyping M_GoTyping P_GoTyping.
From Verif Require Import S_GoRun S_GoMemory.
Import ListNotations.
Open Scope list_scope.
Local Open Scope nat_scope.

(** * Lists *)
Lemma length_replace {A} (x : A) l : forall i, length (replace i x l) = length l.
Proof. induction l as [|y l IH]; intros [|i]; cbn; [reflexivity..|]. now rewrite IH. Qed.
Lemma nth_replace_same {A} (x : A) l : forall i, i < length l -> nth_error (replace i x l) i = Some x.
Proof. induction l as [|y l IH]; intros [|i] H; cbn in *; [lia..|reflexivity|]. apply IH. lia. Qed.
Lemma nth_replace_other {A} (x : A) l : forall i j, i <> j -> nth_error (replace i x l) j = nth_error l j.
Proof.
  induction l as [|y l IH]; intros [|i] [|j] H; cbn; try reflexivity; [lia|]. apply IH. lia.
Qed.
Lemma nth_some_lt {A} (l : list A) i x : nth_error l i = Some x -> i < length l.
Proof. intros H. apply nth_error_Some. congruence. Qed.
Lemma nth_app_l {A} (l l' : list A) i x : nth_error l i = Some x -> nth_error (l ++ l') i = Some x.
Proof. intros H. rewrite nth_error_app1; [exact H|now apply nth_some_lt in H]. Qed.
Lemma nth_app_new {A} (l : list A) x : nth_error (l ++ [x]) (length l) = Some x.
Proof. rewrite nth_error_app2 by lia. now rewrite Nat.sub_diag. Qed.
Lemma replace_app {A} (x : A) l y l' : replace (length l) x (l ++ y :: l') = l ++ x :: l'.
Proof. induction l as [|z l IH]; cbn; [reflexivity|]. now rewrite IH. Qed.
Lemma Forall2_upsert {A B} (P : A -> B -> Prop) k a b l l' : P a b -> Forall2 (fun x y => fst x = fst y /\ P (snd x) (snd y)) l l' ->
  Forall2 (fun x y => fst x = fst y /\ P (snd x) (snd y)) (upsert k a l) (upsert k b l').
Proof.
  intros HP H. induction H as [|[k1 a1] [k2 b2] l l' [E H1] H IH]; cbn; [repeat constructor; exact HP|]. cbn in E. subst k2.
  destruct (str_eqb k k1); constructor; try easy.
Qed.

Lemma Forall2_impl {A B} (P Q : A -> B -> Prop) l l' : (forall a b, P a b -> Q a b) -> Forall2 P l l' -> Forall2 Q l l'.
Proof. intros HI H. induction H; constructor; auto. Qed.

(** * Memories *)
Section Memories.
  Context {T : Type}.
  Notation mem := (list (rv T)).
  (** The cells of [H] other than those in [W] are as they were. *)
  Definition keeps (W : list nat) (H H' : mem) : Prop :=
    length H <= length H' /\ forall a v, nth_error H a = Some v -> ~ In a W -> nth_error H' a = Some v.
  Lemma keeps_refl W H : keeps W H H. Proof. split; [lia|auto]. Qed.
  Lemma keeps_trans W H H' H'' : keeps W H H' -> keeps W H' H'' -> keeps W H H''.
  Proof. intros [L1 K1] [L2 K2]. split; [lia|]. intros a v E Ha. apply K2; [apply K1|]; auto. Qed.
  Lemma keeps_more W W' H H' : incl W W' -> keeps W H H' -> keeps W' H H'.
  Proof. intros HI [L K]. split; [exact L|]. intros a v E Ha. apply K; auto. Qed.
  Lemma keeps_app W H v : keeps W H (H ++ [v]).
  Proof. split; [rewrite app_length; lia|]. intros a w E _. now apply nth_app_l. Qed.
  Lemma keeps_replace W H H' a v : In a W \/ length H <= a -> keeps W H H' -> keeps W H (replace a v H').
  Proof.
    intros Ha [L K]. split; [rewrite length_replace; exact L|]. intros b w E Hb. rewrite nth_replace_other; [now apply K|].
    intros ->. destruct Ha as [Ha|Ha]; [contradiction|]. apply nth_some_lt in E. lia.
  Qed.
  (** Writing only to newer cells *)
  Lemma keeps_new W H H' H'' : keeps [] H H' -> (forall a, In a W -> length H <= a) -> keeps W H' H'' -> keeps [] H H''.
  Proof.
    intros [L1 K1] HW [L2 K2]. split; [lia|]. intros a v E _. apply K2; [now apply K1|]. intros Hin. apply HW in Hin. apply nth_some_lt in E. lia.
  Qed.
  Lemma keeps_fresh W W' H H' H'' : keeps W H H' -> keeps W' H' H'' -> (forall a, In a W' -> In a W \/ length H <= a) -> keeps W H H''.
  Proof.
    intros [L1 K1] [L2 K2] HW. split; [lia|]. intros a v E Ha. apply K2; [now apply K1|]. intros Hin. apply HW in Hin as [Hin|Hin]; [contradiction|]. apply nth_some_lt in E. lia.
  Qed.
  Lemma keeps_nth H H' a v : keeps [] H H' -> nth_error H a = Some v -> nth_error H' a = Some v.
  Proof. intros [_ K] E. apply K; auto. Qed.
End Memories.

Section Jval.
  Variable P : jval -> Prop.
  Hypothesis Hatom : forall j, (match j with JArr _ | JObj _ => False | _ => True end) -> P j.
  Hypothesis Harr : forall l, Forall P l -> P (JArr l).
  Hypothesis Hobj : forall l, Forall (fun kv => P (snd kv)) l -> P (JObj l).
  Fixpoint jval_run_ind (j : jval) : P j :=
    match j with
    | JArr l => Harr l ((fix go l : Forall P l := match l with [] => Forall_nil _ | x :: l' => Forall_cons x (jval_run_ind x) (go l') end) l)
    | JObj l => Hobj l ((fix go l : Forall (fun kv => P (snd kv)) l := match l with [] => Forall_nil _ | x :: l' => Forall_cons x (jval_run_ind (snd x)) (go l') end) l)
    | j => Hatom j I
    end.
End Jval.

Section Reads.
  Context {T : Type}.
  Notation mem := (list (rv T)).
  Lemma reads_arr (H : mem) lo js v : reads H lo (JArr js) v <->
    exists a ws, v = RSlice a /\ lo <= a /\ nth_error H a = Some (RItems ws) /\ Forall2 (reads H lo) js ws.
  Proof.
    cbn [reads]. split; intros (a & ws & E1 & E2 & E3 & HA); exists a, ws; (split; [exact E1|split; [exact E2|split; [exact E3|]]]); clear - HA; revert ws HA;
      induction js as [|j js IH]; intros [|w ws] HA; try easy.
    - destruct HA as [H1 H2]. constructor; [exact H1|now apply IH].
    - inversion HA; subst. split; [assumption|]. now apply IH.
  Qed.
  Definition entries_read (H : mem) (lo : nat) (js : list (str * jval)) (ws : list (str * rv T)) : Prop :=
    Forall2 (fun x y => fst x = fst y /\ reads H lo (snd x) (snd y)) js ws.
  Lemma reads_obj (H : mem) lo js v : reads H lo (JObj js) v <->
    exists a ws, v = RMap a /\ lo <= a /\ nth_error H a = Some (REntries ws) /\ entries_read H lo js ws.
  Proof.
    cbn [reads]. split; intros (a & ws & E1 & E2 & E3 & HA); exists a, ws; (split; [exact E1|split; [exact E2|split; [exact E3|]]]); clear - HA; revert ws HA;
      induction js as [|[k j] js IH]; intros [|[k' w] ws] HA; try easy; try (now constructor).
    - destruct HA as (H1 & H2 & H3). constructor; [split; assumption|]. now apply IH.
    - inversion HA as [|? ? ? ? [E HR] HF]; subst. split; [exact E|split; [exact HR|]]. now apply IH.
  Qed.
  (** What is read lies in the cells from [lo] on. *)
  Lemma reads_change (H H' : mem) lo lo' : lo' <= lo -> (forall a v, lo <= a -> nth_error H a = Some v -> nth_error H' a = Some v) ->
    forall j v, reads H lo j v -> reads H' lo' j v.
  Proof.
    intros Hlo HK. induction j as [j Hj|js IH|js IH] using jval_run_ind; intros v.
    - destruct j; try (now intros H1); contradiction.
    - rewrite !reads_arr. intros (a & ws & E1 & E2 & E3 & HF). exists a, ws. split; [exact E1|split; [lia|split; [now apply HK|]]].
      clear - IH HF. induction HF; constructor; inversion IH; subst; auto.
    - rewrite !reads_obj. intros (a & ws & E1 & E2 & E3 & HF). exists a, ws. split; [exact E1|split; [lia|split; [now apply HK|]]].
      clear - IH HF. unfold entries_read in *. induction HF as [|? ? ? ? [E HR] HF IHF]; constructor; inversion IH; subst; [split|]; auto.
  Qed.
  Lemma reads_keeps W (H H' : mem) lo lo' j v : keeps W H H' -> (forall a, In a W -> a < lo) -> lo' <= lo -> reads H lo j v -> reads H' lo' j v.
  Proof. intros [_ K] HW Hlo. apply reads_change; [exact Hlo|]. intros a w Ha E. apply K; [exact E|]. intros Hin. apply HW in Hin. lia. Qed.
  Lemma entries_keeps W (H H' : mem) lo lo' js ws : keeps W H H' -> (forall a, In a W -> a < lo) -> lo' <= lo -> entries_read H lo js ws -> entries_read H' lo' js ws.
  Proof.
    intros K HW Hlo HF. eapply Forall2_impl; [|exact HF]. intros [k j] [k' w] [E HR]. split; [exact E|]. now apply (reads_keeps W H H' lo).
  Qed.
  Lemma items_keeps W (H H' : mem) lo lo' js ws : keeps W H H' -> (forall a, In a W -> a < lo) -> lo' <= lo -> Forall2 (reads H lo) js ws -> Forall2 (reads H' lo') js ws.
  Proof. intros K HW Hlo HF. eapply Forall2_impl; [|exact HF]. intros j w HR. now apply (reads_keeps W H H' lo). Qed.
  Lemma part_app (l l' : list step) : forall v w : rv T, part l v = Some w -> part (l ++ l') v = part l' w.
  Proof.
    induction l as [|[f|i] l IH]; intros v w E; cbn in *; [congruence|..].
    - destruct v; try discriminate. destruct (lookup f fields); [|discriminate]. now apply IH.
    - destruct v; try discriminate. destruct (nth_error l0 i); [|discriminate]. now apply IH.
  Qed.
End Reads.

(** * Scopes which grow by numbered variables *)
Definition grows (n : nat) (r r' : scope) : Prop := exists D, r' = D ++ r /\ Forall (fun p => exists x, fst p = Auto x /\ gnum n x) D.
Lemma grows_refl n r : grows n r r. Proof. exists []. split; [reflexivity|constructor]. Qed.
Lemma grows_trans n m r r' r'' : n <= m -> grows n r r' -> grows m r' r'' -> grows n r r''.
Proof.
  intros Hn (D & -> & HD) (D' & -> & HD'). exists (D' ++ D). split; [now rewrite app_assoc|]. apply Forall_app. split; [|exact HD].
  eapply Forall_impl; [|exact HD']. intros p (x & E & Hx). exists x. split; [exact E|]. now apply (num_le _ n m).
Qed.
Lemma grows_cons n r r' s k a : In (s_ s) go_stems -> n <= k -> grows n r r' -> grows n r ((num_var s k, a) :: r').
Proof.
  intros Hs Hk (D & -> & HD). exists ((num_var s k, a) :: D). split; [reflexivity|]. constructor; [|exact HD].
  exists (auto s k). split; [reflexivity|]. now apply gnum_auto.
Qed.
Lemma grows_cell n r r' x a : stable n x -> cell_of r x = Some a -> grows n r r' -> cell_of r' x = Some a.
Proof.
  intros Hx H (D & -> & HD). induction HD as [|[y u] D (z & E & Hz) _ IH]; [exact H|]. cbn [fst] in E. subst y. cbn [app cell_of].
  destruct (thing_dec x (Auto z)) as [->|_]; [|exact IH]. exfalso. now apply (Hx z).
Qed.
Lemma cell_here x a r : cell_of ((x, a) :: r) x = Some a.
Proof. cbn. destruct (thing_dec x x); [reflexivity|contradiction]. Qed.
Lemma cell_before x y a r : x <> y -> cell_of ((y, a) :: r) x = cell_of r x.
Proof. intros H. cbn. destruct (thing_dec x y); [contradiction|reflexivity]. Qed.
Ltac cells := repeat first [apply cell_here | rewrite cell_before; [|differ] | assumption].
Ltac grow := repeat first [apply grows_refl | apply grows_cons; [stem|lia|] | assumption].

(** * The rules *)
Section Rules.
  Variable X : gext.
  Variable printed : str -> list (rv (g_time X)) -> str.
  Variable duration_from : str -> option Z.
  Variable duration_to : Z -> str.
  Variable structs : list (str * list (str * gtype)).
  Variable functions : list gfunction.
  Variable globals : list (str * str).
  Notation val := (rv (g_time X)).
  Notation mem := (memory X).
  Notation eval := (eval X printed duration_from duration_to structs functions globals).
  Notation place_of := (place_of X printed duration_from duration_to structs functions globals).
  Notation arguments := (arguments X printed duration_from duration_to structs functions globals).
  Notation called := (S_GoRun.call X printed duration_from duration_to structs functions globals).
  Notation values := (values X printed duration_from duration_to structs functions globals).
  Notation assign := (assign X printed duration_from duration_to structs functions globals).
  Notation assigns := (assigns X printed duration_from duration_to structs functions globals).
  Notation exec := (exec X printed duration_from duration_to structs functions globals).
  Notation ranging := (ranging X printed duration_from duration_to structs functions globals).
  Notation looping := (looping X printed duration_from duration_to structs functions globals).
  Notation library := (library X printed duration_from duration_to).

  (** With enough steps, the outcome is [o]. *)
  Definition ev {A} (m : nat -> act X A) (H : mem) (o : out (A * mem)) : Prop := exists n0, forall n, n0 <= n -> m n H = o.
  Lemma ev_step {A} (m m' : nat -> act X A) H o : (forall n, m (S n) = m' n) -> ev m' H o -> ev m H o.
  Proof. intros E [n0 Hn]. exists (S n0). intros [|n] L; [lia|]. rewrite E. apply Hn. lia. Qed.
  Lemma ev_const {A} (m : act X A) H o : m H = o -> ev (fun _ => m) H o.
  Proof. intros E. exists 0. auto. Qed.
  Lemma ev_bind {A B} (m : nat -> act X A) (f : nat -> A -> act X B) H a H' o :
    ev m H (Out (a, H')) -> ev (fun n => f n a) H' o -> ev (fun n => andthen X (m n) (f n)) H o.
  Proof. intros [n1 H1] [n2 H2]. exists (n1 + n2). intros n L. unfold andthen. rewrite H1 by lia. apply H2. lia. Qed.
  Lemma ev_panic {A B} (m : nat -> act X A) (f : nat -> A -> act X B) H : ev m H Panicked -> ev (fun n => andthen X (m n) (f n)) H Panicked.
  Proof. intros [n1 H1]. exists n1. intros n L. unfold andthen. now rewrite H1. Qed.
  (** One step of the interpreter *)
  Ltac one := eapply ev_step; [intros ?; cbn; reflexivity|].
  (** The first action is known; what follows remains. *)
  Ltac next := eapply ev_bind; [|cbn beta iota].
  Ltac const := apply ev_const; cbn; reflexivity.

  Notation evals r H e o := (ev (fun n => eval n r e) H o).
  Notation places r H e o := (ev (fun n => place_of n r e) H o).
  Notation runs r H ss o := (ev (fun n => exec n r ss) H o).

  Lemma load_at (H : mem) a v : nth_error H a = Some v -> load X (a, []) H = Out (v, H).
  Proof. intros E. unfold load. cbn [fst snd]. now rewrite E. Qed.
  Lemma load_place (H : mem) l v : at_place X H l = Some v -> load X l H = Out (v, H).
  Proof. intros E. unfold load. unfold at_place in E. now rewrite E. Qed.

  Lemma eval_var r (H : mem) x a v : cell_of r x = Some a -> nth_error H a = Some v -> evals r H (XVar x) (Out (v, H)).
  Proof. intros E1 E2. one. rewrite E1. apply ev_const. unfold given, andthen, done. now apply load_at. Qed.
  Lemma place_var r (H : mem) x a : cell_of r x = Some a -> places r H (XVar x) (Out ((a, []), H)).
  Proof. intros E1. one. rewrite E1. const. Qed.
  Lemma eval_text r (H : mem) x : evals r H (XText x) (Out (RStr x, H)). Proof. one. const. Qed.
  Lemma eval_nil r (H : mem) : evals r H XNil (Out (RNil, H)). Proof. one. const. Qed.
  Lemma eval_number r (H : mem) z : evals r H (XNumber z) (Out (RInt z, H)). Proof. one. const. Qed.
  Lemma eval_field_pointer r H H' e f l v : evals r H e (Out (RPointer l, H')) -> at_place X H' (fst l, snd l ++ [AtField f]) = Some v ->
    evals r H (XField e f) (Out (v, H')).
  Proof. intros E1 E2. one. next; [exact E1|]. apply ev_const. cbn [field_value]. now apply load_place. Qed.
  Lemma eval_field_nil r H H' e f : evals r H e (Out (RNil, H')) -> evals r H (XField e f) Panicked.
  Proof. intros E1. one. next; [exact E1|]. const. Qed.
  Lemma place_field_pointer r H H' e f l : evals r H e (Out (RPointer l, H')) -> places r H (XField e f) (Out ((fst l, snd l ++ [AtField f]), H')).
  Proof. intros E1. one. next; [exact E1|]. const. Qed.
  Lemma eval_deref r H H' e l v : evals r H e (Out (RPointer l, H')) -> at_place X H' l = Some v -> evals r H (XDeref e) (Out (v, H')).
  Proof. intros E1 E2. one. next; [exact E1|]. apply ev_const. now apply load_place. Qed.
  Lemma place_deref r H H' e l : evals r H e (Out (RPointer l, H')) -> places r H (XDeref e) (Out (l, H')).
  Proof. intros E1. one. next; [exact E1|]. const. Qed.
  Lemma items_of (H : mem) a l : nth_error H a = Some (RItems l) -> items_at X a H = Out (l, H).
  Proof. intros E. unfold items_at, andthen. rewrite (load_at _ _ _ E). reflexivity. Qed.
  Lemma entries_of (H : mem) a l : nth_error H a = Some (REntries l) -> entries_at X a H = Out (l, H).
  Proof. intros E. unfold entries_at, andthen. rewrite (load_at _ _ _ E). reflexivity. Qed.
  Lemma index_items (H : mem) a l i v : nth_error H a = Some (RItems l) -> nth_error l i = Some v ->
    at_index X (RSlice a) (RInt (Z.of_nat i)) H = Out (v, H).
  Proof.
    intros E1 E2. unfold at_index, andthen. rewrite (items_of _ _ _ E1). destruct (Z.leb_spec 0 (Z.of_nat i)); [|lia].
    rewrite Nat2Z.id, E2. reflexivity.
  Qed.
  Lemma eval_index r H H1 H2 e i v w o : evals r H e (Out (v, H1)) -> evals r H1 i (Out (w, H2)) -> at_index X v w H2 = o -> evals r H (XIndex e i) o.
  Proof. intros E1 E2 E3. one. next; [exact E1|]. next; [exact E2|]. now apply ev_const. Qed.
  Lemma eval_addr r H H' e l : places r H e (Out (l, H')) -> evals r H (XAddr e) (Out (RPointer l, H')).
  Proof. intros E. one. next; [exact E|]. const. Qed.
  Lemma eval_len r H H' e v o : evals r H e (Out (v, H')) -> size X v H' = o -> evals r H (XLen e) o.
  Proof. intros E1 E2. one. next; [exact E1|]. now apply ev_const. Qed.
  Lemma args_nil r H : ev (fun n => arguments n r []) H (Out ([], H)). Proof. one. const. Qed.
  Lemma args_cons r H H1 H2 e l v vs : evals r H e (Out (v, H1)) -> ev (fun n => arguments n r l) H1 (Out (vs, H2)) -> ev (fun n => arguments n r (e :: l)) H (Out (v :: vs, H2)).
  Proof. intros E1 E2. one. next; [exact E1|]. next; [exact E2|]. const. Qed.
  Lemma eval_method r H H1 H2 e m l v vs o : evals r H e (Out (v, H1)) -> ev (fun n => arguments n r l) H1 (Out (vs, H2)) -> method X v m vs H2 = o -> evals r H (XMethod e m l) o.
  Proof. intros E1 E2 E3. one. next; [exact E1|]. next; [exact E2|]. now apply ev_const. Qed.
  Lemma eval_call r H H1 H2 f l vs v : ev (fun n => arguments n r l) H (Out (vs, H1)) -> ev (fun n => called n f vs) H1 (Out ([v], H2)) -> evals r H (XCall f l) (Out (v, H2)).
  Proof. intros E1 E2. one. next; [exact E1|]. next; [exact E2|]. const. Qed.
  Lemma eval_call_panics r H H1 f l vs : ev (fun n => arguments n r l) H (Out (vs, H1)) -> ev (fun n => called n f vs) H1 Panicked -> evals r H (XCall f l) Panicked.
  Proof. intros E1 E2. one. next; [exact E1|]. now apply ev_panic. Qed.
  Lemma call_library f vs m H o : library f vs = Some m -> m H = o -> ev (fun n => called n f vs) H o.
  Proof. intros E1 E2. eapply ev_step; [intros n; cbn; rewrite E1; reflexivity|]. now apply ev_const. Qed.
  Lemma eval_make_map r H t : evals r H (XMake (S_GoTyping.GMap t) None) (Out (RMap (length H), H ++ [REntries []])).
  Proof. one. const. Qed.
  Lemma eval_make_slice r H H' count c : evals r H count (Out (RInt (Z.of_nat c), H')) ->
    evals r H (XMake (GSlice GAny) (Some count)) (Out (RSlice (length H'), H' ++ [RItems (repeat RNil c)])).
  Proof.
    intros E. assert (EZ : (Z.of_nat c <? 0)%Z = false) by (apply Z.ltb_ge; lia). one. next; [exact E|]. cbn beta iota. rewrite EZ, Nat2Z.id.
    eapply ev_bind with (a := RNil) (H' := H'); [exists 1; intros [|n] L; [lia|]; reflexivity|]. const.
  Qed.
  Lemma eval_equal r H H1 H2 o a b v w t : evals r H a (Out (v, H1)) -> evals r H1 b (Out (w, H2)) -> equals X v w = Some t ->
    evals r H (XEqual o a b) (Out (RBool (match o with IsEqual => t | IsUnequal => negb t end), H2)).
  Proof. intros E1 E2 E3. one. next; [exact E1|]. next; [exact E2|]. rewrite E3. const. Qed.
  Lemma eval_order r H H1 H2 o a b v w t : evals r H a (Out (v, H1)) -> evals r H1 b (Out (w, H2)) -> compared X v w = Some t ->
    evals r H (XOrder o a b) (Out (RBool (decides o t), H2)).
  Proof. intros E1 E2 E3. one. next; [exact E1|]. next; [exact E2|]. rewrite E3. const. Qed.

  Lemma assign_map r H H1 H2 m k a key l v : evals r H m (Out (RMap a, H1)) -> evals r H1 k (Out (RStr key, H2)) -> nth_error H2 a = Some (REntries l) ->
    ev (fun n => assign n r (XIndex m k) v) H (Out (tt, replace a (REntries (upsert key v l)) H2)).
  Proof.
    intros E1 E2 E3. one. next; [exact E1|]. next; [exact E2|]. apply ev_const. unfold andthen. rewrite (entries_of _ _ _ E3).
    unfold store. cbn [fst snd]. rewrite E3. reflexivity.
  Qed.
  Lemma assign_item r H m k a i l v : evals r H m (Out (RSlice a, H)) -> evals r H k (Out (RInt (Z.of_nat i), H)) -> nth_error H a = Some (RItems l) -> i < length l ->
    ev (fun n => assign n r (XIndex m k) v) H (Out (tt, replace a (RItems (replace i v l)) H)).
  Proof.
    intros E1 E2 E3 Hi. destruct (nth_error l i) as [u|] eqn:Eu; [|apply nth_error_None in Eu; lia].
    eapply ev_step; [intros n; cbn - [S_GoRun.place_of]; reflexivity|]. next; [exact E1|]. cbn beta iota. next.
    - one. next; [exact E1|]. next; [exact E2|]. cbn beta iota. apply ev_const. unfold andthen. rewrite (index_items _ _ _ _ _ E3 Eu). reflexivity.
    - apply ev_const. rewrite Nat2Z.id. unfold store. cbn [fst snd]. rewrite E3. cbn [with_part]. rewrite Eu. reflexivity.
  Qed.
  Lemma assign_var r (H : mem) x a u v : cell_of r x = Some a -> nth_error H a = Some u -> ev (fun n => assign n r (XVar x) v) H (Out (tt, replace a v H)).
  Proof.
    intros E1 E2. eapply ev_step; [intros n; cbn - [S_GoRun.place_of]; reflexivity|]. next; [apply place_var; exact E1|].
    apply ev_const. unfold store. cbn [fst snd]. rewrite E2. reflexivity.
  Qed.

  Lemma run_nil r H : runs r H [] (Out (Next, H)). Proof. one. const. Qed.
  Lemma run_return r H rest : runs r H (SReturn :: rest) (Out (Return, H)). Proof. one. const. Qed.
  Lemma values_one r H e o v H' : evals r H e (Out (v, H')) -> o = Out ([v], H') -> ev (fun n => values n r e 1) H o.
  Proof. intros E1 ->. eapply ev_step; [intros n; cbn; reflexivity|]. next; [exact E1|]. const. Qed.
  Lemma values_panic r H e : evals r H e Panicked -> ev (fun n => values n r e 1) H Panicked.
  Proof. intros E1. eapply ev_step; [intros n; cbn; reflexivity|]. now apply ev_panic. Qed.
  Lemma run_define r H H' x e v rest o : evals r H e (Out (v, H')) -> runs ((x, length H') :: r) (H' ++ [v]) rest o -> runs r H (SDefine [Some x] e :: rest) o.
  Proof.
    intros E1 E2. eapply ev_step; [intros n; cbn - [S_GoRun.values S_GoRun.exec]; reflexivity|]. next; [eapply values_one; [exact E1|reflexivity]|].
    next; [apply ev_const; cbn; reflexivity|]. exact E2.
  Qed.
  Lemma run_define_panics r H x e rest : evals r H e Panicked -> runs r H (SDefine [x] e :: rest) Panicked.
  Proof. intros E1. eapply ev_step; [intros n; cbn - [S_GoRun.values S_GoRun.exec]; reflexivity|]. apply ev_panic. now apply values_panic. Qed.
  Lemma run_assign r H H1 H2 tg e v rest o : evals r H e (Out (v, H1)) -> ev (fun n => assign n r tg v) H1 (Out (tt, H2)) -> runs r H2 rest o -> runs r H (SAssign [tg] e :: rest) o.
  Proof.
    intros E1 E2 E3. eapply ev_step; [intros n; cbn - [S_GoRun.values S_GoRun.exec S_GoRun.assigns]; reflexivity|]. next; [eapply values_one; [exact E1|reflexivity]|].
    next; [|exact E3]. one. next; [exact E2|]. one. const.
  Qed.
  Lemma run_assign_panics r H tg e rest : evals r H e Panicked -> runs r H (SAssign [tg] e :: rest) Panicked.
  Proof. intros E1. eapply ev_step; [intros n; cbn - [S_GoRun.values S_GoRun.exec]; reflexivity|]. apply ev_panic. now apply values_panic. Qed.
  Lemma run_if r H H1 H2 e (t : bool) b c rest o : evals r H e (Out (RBool t, H1)) -> runs r H1 (if t then b else c) (Out (Next, H2)) -> runs r H2 rest o -> runs r H (SIf e b c :: rest) o.
  Proof.
    intros E1 E2 E3. eapply ev_step; [intros n; cbn - [S_GoRun.exec S_GoRun.eval]; reflexivity|]. next; [exact E1|]. cbn beta iota. next; [exact E2|]. exact E3.
  Qed.
  Lemma run_if_return r H H1 H2 e (t : bool) b c rest : evals r H e (Out (RBool t, H1)) -> runs r H1 (if t then b else c) (Out (Return, H2)) -> runs r H (SIf e b c :: rest) (Out (Return, H2)).
  Proof.
    intros E1 E2. eapply ev_step; [intros n; cbn - [S_GoRun.exec S_GoRun.eval]; reflexivity|]. next; [exact E1|]. cbn beta iota. next; [exact E2|]. const.
  Qed.
  Lemma run_if_panics r H H1 e (t : bool) b c rest : evals r H e (Out (RBool t, H1)) -> runs r H1 (if t then b else c) Panicked -> runs r H (SIf e b c :: rest) Panicked.
  Proof.
    intros E1 E2. eapply ev_step; [intros n; cbn - [S_GoRun.exec S_GoRun.eval]; reflexivity|]. next; [exact E1|]. cbn beta iota. now apply ev_panic.
  Qed.
  Lemma run_for r H i e b rest H' o : ev (fun n => looping n ((i, length H) :: r) (length H) e b) (H ++ [RInt 0]) (Out (Next, H')) -> runs r H' rest o ->
    runs r H (SFor i e b :: rest) o.
  Proof.
    intros E1 E2. eapply ev_step; [intros n; cbn - [S_GoRun.exec S_GoRun.looping]; reflexivity|]. next; [apply ev_const; reflexivity|]. cbn beta.
    next; [exact E1|]. exact E2.
  Qed.
  Lemma run_for_panics r H i e b rest : ev (fun n => looping n ((i, length H) :: r) (length H) e b) (H ++ [RInt 0]) Panicked -> runs r H (SFor i e b :: rest) Panicked.
  Proof.
    intros E1. eapply ev_step; [intros n; cbn - [S_GoRun.exec S_GoRun.looping]; reflexivity|]. next; [apply ev_const; reflexivity|]. cbn beta. now apply ev_panic.
  Qed.
  Lemma loop_end r H a e b : evals r H e (Out (RBool false, H)) -> ev (fun n => looping n r a e b) H (Out (Next, H)).
  Proof. intros E1. eapply ev_step; [intros n; cbn - [S_GoRun.exec S_GoRun.eval]; reflexivity|]. next; [exact E1|]. const. Qed.
  Lemma loop_step r H H' a e b i o : evals r H e (Out (RBool true, H)) -> runs r H b (Out (Next, H')) -> nth_error H' a = Some (RInt i) ->
    ev (fun n => looping n r a e b) (replace a (RInt (i + 1)) H') o -> ev (fun n => looping n r a e b) H o.
  Proof.
    intros E1 E2 E3 E4. eapply ev_step; [intros n; cbn - [S_GoRun.exec S_GoRun.eval S_GoRun.looping]; reflexivity|]. next; [exact E1|]. cbn beta iota.
    next; [exact E2|]. cbn beta iota. next; [apply ev_const; apply load_at; exact E3|]. cbn beta iota.
    next; [apply ev_const; unfold store; cbn [fst snd]; rewrite E3; reflexivity|]. exact E4.
  Qed.
  Lemma loop_panics r H a e b : evals r H e (Out (RBool true, H)) -> runs r H b Panicked -> ev (fun n => looping n r a e b) H Panicked.
  Proof.
    intros E1 E2. eapply ev_step; [intros n; cbn - [S_GoRun.exec S_GoRun.eval S_GoRun.looping]; reflexivity|]. next; [exact E1|]. cbn beta iota. now apply ev_panic.
  Qed.
  Lemma run_range r H H1 H2 H3 k x e b v l rest o : evals r H e (Out (v, H1)) -> ranged X v H1 = Out (l, H2) -> ev (fun n => ranging n r k x b l) H2 (Out (Next, H3)) ->
    runs r H3 rest o -> runs r H (SRange k x e b :: rest) o.
  Proof.
    intros E1 E2 E3 E4. eapply ev_step; [intros n; cbn - [S_GoRun.exec S_GoRun.eval S_GoRun.ranging]; reflexivity|]. next; [exact E1|].
    next; [apply ev_const; exact E2|]. next; [exact E3|]. exact E4.
  Qed.
  Lemma run_range_return r H H1 H2 H3 k x e b v l rest : evals r H e (Out (v, H1)) -> ranged X v H1 = Out (l, H2) -> ev (fun n => ranging n r k x b l) H2 (Out (Return, H3)) ->
    runs r H (SRange k x e b :: rest) (Out (Return, H3)).
  Proof.
    intros E1 E2 E3. eapply ev_step; [intros n; cbn - [S_GoRun.exec S_GoRun.eval S_GoRun.ranging]; reflexivity|]. next; [exact E1|].
    next; [apply ev_const; exact E2|]. next; [exact E3|]. const.
  Qed.
  Lemma run_range_panics r H H1 H2 k x e b v l rest : evals r H e (Out (v, H1)) -> ranged X v H1 = Out (l, H2) -> ev (fun n => ranging n r k x b l) H2 Panicked ->
    runs r H (SRange k x e b :: rest) Panicked.
  Proof.
    intros E1 E2 E3. eapply ev_step; [intros n; cbn - [S_GoRun.exec S_GoRun.eval S_GoRun.ranging]; reflexivity|]. next; [exact E1|].
    next; [apply ev_const; exact E2|]. now apply ev_panic.
  Qed.
  Lemma range_end r H k x b : ev (fun n => ranging n r k x b []) H (Out (Next, H)). Proof. one. const. Qed.
  Lemma range_step r H H1 k x b key v l o : runs ((x, S (length H)) :: (k, length H) :: r) (H ++ [key; v]) b (Out (Next, H1)) ->
    ev (fun n => ranging n r k (Some x) b l) H1 o -> ev (fun n => ranging n r k (Some x) b ((key, v) :: l)) H o.
  Proof.
    intros E1 E2. eapply ev_step; [intros n; cbn - [S_GoRun.exec S_GoRun.ranging]; reflexivity|].
    next; [apply ev_const; unfold declare, andthen, alloc, done; rewrite <- app_assoc, app_length, Nat.add_1_r; reflexivity|]. next; [exact E1|]. exact E2.
  Qed.
  Lemma range_panics r H k x b key v l : runs ((x, S (length H)) :: (k, length H) :: r) (H ++ [key; v]) b Panicked ->
    ev (fun n => ranging n r k (Some x) b ((key, v) :: l)) H Panicked.
  Proof.
    intros E1. eapply ev_step; [intros n; cbn - [S_GoRun.exec S_GoRun.ranging]; reflexivity|].
    next; [apply ev_const; unfold declare, andthen, alloc, done; rewrite <- app_assoc, app_length, Nat.add_1_r; reflexivity|]. now apply ev_panic.
  Qed.
  Lemma range_key_step r H H1 k b key v l o : runs ((k, length H) :: r) (H ++ [key]) b (Out (Next, H1)) ->
    ev (fun n => ranging n r k None b l) H1 o -> ev (fun n => ranging n r k None b ((key, v) :: l)) H o.
  Proof.
    intros E1 E2. eapply ev_step; [intros n; cbn - [S_GoRun.exec S_GoRun.ranging]; reflexivity|].
    next; [apply ev_const; reflexivity|]. next; [exact E1|]. exact E2.
  Qed.
  Lemma range_key_return r H H1 k b key v l : runs ((k, length H) :: r) (H ++ [key]) b (Out (Return, H1)) ->
    ev (fun n => ranging n r k None b ((key, v) :: l)) H (Out (Return, H1)).
  Proof.
    intros E1. eapply ev_step; [intros n; cbn - [S_GoRun.exec S_GoRun.ranging]; reflexivity|].
    next; [apply ev_const; reflexivity|]. next; [exact E1|]. const.
  Qed.
  Lemma range_key_panics r H k b key v l : runs ((k, length H) :: r) (H ++ [key]) b Panicked ->
    ev (fun n => ranging n r k None b ((key, v) :: l)) H Panicked.
  Proof.
    intros E1. eapply ev_step; [intros n; cbn - [S_GoRun.exec S_GoRun.ranging]; reflexivity|].
    next; [apply ev_const; reflexivity|]. now apply ev_panic.
  Qed.
  Lemma run_defer r H H1 H2 b rest s s' : runs r H rest (Out (s, H1)) -> runs r H1 b (Out (s', H2)) -> runs r H (SDefer b :: rest) (Out (s, H2)).
  Proof.
    intros E1 E2. eapply ev_step; [intros n; cbn - [S_GoRun.exec]; reflexivity|]. next; [exact E1|]. next; [exact E2|]. const.
  Qed.
  Lemma run_defer_panics r H b rest : runs r H rest Panicked -> runs r H (SDefer b :: rest) Panicked.
  Proof. intros E1. eapply ev_step; [intros n; cbn - [S_GoRun.exec]; reflexivity|]. now apply ev_panic. Qed.
End Rules.
