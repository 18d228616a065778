(** Proofs about the automatically numbered variables. *)
From Verif Require Import Base M_Naming M_Schema M_Dec M_Text M_PyGen M_GoGen M_AutoID.
From Coq Require Import String List Arith NArith ZArith Bool Lia.
Import ListNotations.
Open Scope list_scope.

(** The number in a variable: its first run of digits. *)
Definition digits_of (n : str) : str := takewhile is_digit (dropwhile (fun c => negb (is_digit c)) n).
Definition no_digits (s : str) : bool := forallb (fun c => negb (is_digit c)) s.

Lemma takewhile_all {A} (p : A -> bool) a b :
  forallb p a = true -> match b with [] => true | c :: _ => negb (p c) end = true ->
  takewhile p (a ++ b) = a.
Proof.
  induction a as [|c a IH]; cbn [forallb app takewhile]; intros Ha Hb.
  - destruct b as [|c b]; [reflexivity|]. cbn [takewhile]. apply negb_true_iff in Hb. now rewrite Hb.
  - apply andb_true_iff in Ha as [Hc Ha]. rewrite Hc. f_equal. now apply IH.
Qed.

Lemma dropwhile_all {A} (p : A -> bool) a b :
  forallb p a = true -> match b with [] => true | c :: _ => negb (p c) end = true ->
  dropwhile p (a ++ b) = b.
Proof.
  induction a as [|c a IH]; cbn [forallb app dropwhile]; intros Ha Hb.
  - destruct b as [|c b]; [reflexivity|]. cbn [dropwhile]. apply negb_true_iff in Hb. now rewrite Hb.
  - apply andb_true_iff in Ha as [Hc Ha]. rewrite Hc. now apply IH.
Qed.

Lemma digits_of_app p k s :
  no_digits p = true -> match s with [] => true | c :: _ => negb (is_digit c) end = true ->
  digits_of (p ++ dec_nat k ++ s) = dec_nat k.
Proof.
  intros Hp Hs. unfold digits_of. rewrite dropwhile_all.
  - apply takewhile_all; [apply dec_N_digits|exact Hs].
  - exact Hp.
  - unfold dec_nat. pose proof (dec_N_nonempty (N.of_nat k)) as Hn. pose proof (dec_N_digits (N.of_nat k)) as Hd.
    destruct (dec_N (N.of_nat k)) as [|c r]; [congruence|].
    cbn [app forallb] in *. apply andb_true_iff in Hd as [-> _]. reflexivity.
Qed.

Lemma digits_of_app_nil p k : no_digits p = true -> digits_of (p ++ dec_nat k) = dec_nat k.
Proof. intros Hp. rewrite <- (app_nil_r (dec_nat k)) at 1. now apply digits_of_app. Qed.

Lemma dec_nat_inj k l : dec_nat k = dec_nat l -> k = l.
Proof. intros H. apply dec_N_inj in H. lia. Qed.

(** What a generator function declares is distinct and numbered with the
    identifiers which it takes. *)
Definition within (u u' : nat) (n : str) : Prop := exists k, u <= k < u' /\ digits_of n = dec_nat k.
Definition fresh (g : gen) : Prop :=
  forall u ds u', g u = (ds, u') -> u <= u' /\ NoDup ds /\ Forall (within u u') ds.

Lemma within_weaken u u' v v' n : v <= u -> u' <= v' -> within u u' n -> within v v' n.
Proof. intros ?? (k & ? & ?). exists k. split; [lia|assumption]. Qed.

Lemma within_disjoint u1 u2 u3 u4 n : u2 <= u3 -> within u1 u2 n -> within u3 u4 n -> False.
Proof.
  intros H (k & Hk & E) (l & Hl & F). rewrite E in F. apply dec_nat_inj in F. lia.
Qed.

Lemma NoDup_app_disjoint {A} (a b : list A) :
  NoDup a -> NoDup b -> (forall x, In x a -> In x b -> False) -> NoDup (a ++ b).
Proof.
  intros Ha Hb Hd. induction Ha as [|x a Hx Ha IH]; [exact Hb|].
  cbn [app]. constructor.
  - intros Hin. apply in_app_or in Hin as [Hin|Hin]; [now apply Hx|]. apply (Hd x); [now left|exact Hin].
  - apply IH. intros y Hy. apply Hd. now right.
Qed.

Lemma fresh_nothing : fresh nothing.
Proof. intros u ds u' H. injection H as <- <-. split; [lia|]. split; constructor. Qed.

Lemma fresh_app u1 u2 u3 (ds es : list str) :
  u1 <= u2 -> u2 <= u3 -> NoDup ds -> Forall (within u1 u2) ds -> NoDup es -> Forall (within u2 u3) es ->
  NoDup (ds ++ es) /\ Forall (within u1 u3) (ds ++ es).
Proof.
  intros H12 H23 Nd Fd Ne Fe. rewrite Forall_forall in Fd, Fe. split.
  - apply NoDup_app_disjoint; [assumption|assumption|]. intros x Hx Hy.
    now apply (within_disjoint u1 u2 u2 u3 x); [|apply Fd|apply Fe].
  - apply Forall_forall. intros x Hx. apply in_app_or in Hx as [Hx|Hx].
    + apply (within_weaken u1 u2); [lia|lia|now apply Fd].
    + apply (within_weaken u2 u3); [lia|lia|now apply Fe].
Qed.

Lemma fresh_then a b : fresh a -> fresh b -> fresh (and_then a b).
Proof.
  intros Ha Hb u ds u' H. unfold and_then in H.
  destruct (a u) as [ds1 u1] eqn:E1. destruct (b u1) as [ds2 u2] eqn:E2. injection H as <- <-.
  destruct (Ha _ _ _ E1) as (? & ? & ?). destruct (Hb _ _ _ E2) as (? & ? & ?).
  split; [lia|]. now apply fresh_app with (u2 := u1).
Qed.

(** The variables [names] of a template with the identifier [uid], followed by
    code with later identifiers. *)
Lemma fresh_uid (names : str -> list str) (rest : str -> gen) :
  (forall k, NoDup (names (dec_nat k)) /\ Forall (fun n => digits_of n = dec_nat k) (names (dec_nat k))) ->
  (forall k, fresh (rest (dec_nat k))) ->
  fresh (with_uid (fun uid => declare (names uid) (rest uid))).
Proof.
  intros Hn Hr u ds u' H. unfold with_uid, declare in H.
  destruct (rest (dec_nat u) (S u)) as [es u2] eqn:E. injection H as <- <-.
  destruct (Hr u _ _ _ E) as (Hle & Nd & Fa). destruct (Hn u) as [Nn Fn].
  split; [lia|]. apply fresh_app with (u2 := S u); try assumption; [lia|].
  apply Forall_forall. intros x Hx. exists u. split; [lia|]. rewrite Forall_forall in Fn. now apply Fn.
Qed.

Lemma fresh_uid_only (g : str -> gen) : (forall uid, g uid = nothing) -> fresh (with_uid g).
Proof.
  intros Hg u ds u' H. unfold with_uid in H. rewrite Hg in H. injection H as <- <-.
  split; [lia|]. split; constructor.
Qed.

Lemma body_fresh f ps : (forall p, fresh (f p)) -> NoDup (body f ps) /\ Forall (fun n => exists k, digits_of n = dec_nat k) (body f ps).
Proof.
  intros Hf. unfold body.
  assert (Hs : fresh (fold_right (fun p rest => and_then (f p) rest) nothing ps)).
  { induction ps as [|p ps IH]; cbn [fold_right]; [apply fresh_nothing|]. apply fresh_then; [apply Hf|apply IH]. }
  destruct (fold_right _ nothing ps 0) as [ds u] eqn:E. destruct (Hs _ _ _ E) as (_ & Hnd & Hall).
  cbn [fst]. split; [exact Hnd|]. apply Forall_forall. intros x Hx. rewrite Forall_forall in Hall.
  destruct (Hall x Hx) as (k & _ & Hk). now exists k.
Qed.

(** Literal prefixes. *)
Ltac numbers :=
  repeat first [ apply Forall_nil
               | apply Forall_cons; [first [ apply digits_of_app_nil; reflexivity
                                           | apply digits_of_app; reflexivity ]|] ].

Lemma suffix_neq p q (d s : str) : length p = length q -> s <> [] -> p ++ d ++ s <> q ++ d.
Proof.
  intros Hl Hs H. apply (f_equal (@length _)) in H. rewrite !app_length in H.
  destruct s; [congruence|]. cbn [length] in H. lia.
Qed.

Ltac differ :=
  let H := fresh "H" in
  intros H; cbn [In] in H;
  repeat match type of H with
         | _ \/ _ => destruct H as [H|H]
         end;
  first [ exact H
        | now apply app_inv_tail in H
        | (symmetry in H; revert H; now apply suffix_neq)
        | (revert H; now apply suffix_neq)
        | discriminate H
        | (cbn in H; discriminate H) ].
Ltac distinct := repeat first [ apply NoDup_nil | apply NoDup_cons; [differ|] ].

Ltac by_uid tac :=
  apply fresh_uid; [intros ?k; split; [solve [distinct]|solve [numbers]]|intros ?k; tac].

Lemma is_variable_numbered p k :
  match p with [] => false | c :: r => (is_alpha c || N.eqb c underscore)
                                       && forallb (fun d => is_alpha d || is_digit d || N.eqb d underscore) r end = true ->
  is_variable (p ++ dec_nat k) = true.
Proof.
  intros H. destruct p as [|c r]; [discriminate H|]. apply andb_true_iff in H as [Hc Hr].
  unfold is_variable, py_dollar. apply orb_true_iff. left. cbn [app]. apply andb_true_iff. split; [exact Hc|].
  rewrite forallb_app. apply andb_true_iff. split; [exact Hr|].
  pose proof (dec_N_digits (N.of_nat k)) as Hd. unfold dec_nat. induction (dec_N (N.of_nat k)) as [|d l IH]; [reflexivity|].
  cbn [forallb] in *. apply andb_true_iff in Hd as [Hd Hl]. rewrite Hd, orb_true_r. cbn [orb andb]. now apply IH.
Qed.

(** * Python *)
Section Python.
  Variable S : py_settings.

  Lemma py_parse_value_fresh t : forall v, is_variable v = true -> fresh (py_parse_value v t).
  Proof.
    induction t; intros v Hv; cbn [py_parse_value]; unfold py_prelude; rewrite Hv; cbn [app];
      by_uid ltac:(first [apply fresh_nothing|apply IHt; apply is_variable_numbered; reflexivity]).
  Qed.

  Lemma py_parse_property_fresh p : fresh (py_parse_property p).
  Proof.
    unfold py_parse_property.
    apply (fresh_uid (fun uid => [s_ "value_" ++ uid]) (fun uid => py_parse_value (s_ "value_" ++ uid) (p_type p))).
    - intros k. split; [distinct|numbers].
    - intros k. apply py_parse_value_fresh. apply is_variable_numbered. reflexivity.
  Qed.

  Lemma py_serialize_value_fresh t : fresh (py_serialize_value S t).
  Proof.
    induction t; cbn [py_serialize_value]; try apply fresh_nothing.
    - destruct (py_direct_copy S t).
      + now apply fresh_uid_only.
      + destruct (py_has_expr t); by_uid ltac:(first [apply fresh_nothing|exact IHt]).
    - destruct (py_has_expr t); by_uid ltac:(first [apply fresh_nothing|exact IHt]).
  Qed.
End Python.

(** * Go *)
Lemma go_parse_value_fresh t : fresh (go_parse_value t).
Proof.
  induction t; cbn [go_parse_value]; try (apply fresh_uid_only; reflexivity).
  all: try (by_uid ltac:(first [apply fresh_nothing|exact IHt])).
  - destruct (b_min b), (b_max b); cbn [app]; by_uid ltac:(apply fresh_nothing).
  - destruct t; cbn [app]; by_uid ltac:(exact IHt).
Qed.

Lemma go_parse_property_fresh p : fresh (go_parse_property p).
Proof.
  unfold go_parse_property. destruct (p_optional p && negb (is_pointer_type (p_type p))); cbn [app];
    by_uid ltac:(apply go_parse_value_fresh).
Qed.

Lemma go_serialize_value_fresh t : fresh (go_serialize_value t).
Proof.
  induction t; cbn [go_serialize_value]; try apply fresh_nothing;
    by_uid ltac:(exact IHt).
Qed.

(** * C++ *)
Lemma declare_declare a b r u : declare a (declare b r) u = declare (a ++ b) r u.
Proof. unfold declare. destruct (r u). now rewrite app_assoc. Qed.

Lemma fresh_ext g h : (forall u, g u = h u) -> fresh h -> fresh g.
Proof. intros E H u ds u' Hg. rewrite E in Hg. now apply H. Qed.

Lemma cpp_parse_value_fresh d t : forall v, fresh (cpp_parse_value d v t).
Proof.
  assert (Hd : forall (pre names : str -> list str) (rest : str -> gen),
             fresh (with_uid (fun uid => declare (pre uid ++ names uid) (rest uid))) ->
             fresh (with_uid (fun uid => declare (pre uid) (declare (names uid) (rest uid))))).
  { intros pre names rest. apply fresh_ext. intros u. apply declare_declare. }
  induction t; intros v; cbn [cpp_parse_value]; unfold cpp_prelude, ctime_names;
    repeat match goal with
           | |- context [match ?o with Some _ => _ | None => _ end] => destruct o
           | |- context [bounded ?b] => destruct (bounded b)
           | |- context [if d then _ else _] => destruct d
           | |- context [if is_variable ?e then _ else _] => destruct (is_variable e)
           end;
    first [ by_uid ltac:(apply fresh_nothing)
          | apply (Hd (fun uid => _) (fun uid => _) (fun uid => _)); cbn [app]; by_uid ltac:(first [apply IHt|apply fresh_nothing]) ].
Qed.

Lemma cpp_serialize_value_fresh t : fresh (cpp_serialize_value t).
Proof.
  induction t; cbn [cpp_serialize_value]; try apply fresh_nothing;
    by_uid ltac:(exact IHt).
Qed.
