(** Basic facts about the generated C++ parser: errors only grow; numbers. *)
From Verif Require Import Base M_Naming M_Errors M_Dec M_Schema M_Duration M_Num M_CppTime M_CppGen S_Conform S_Common S_CppGen P_Common.
From Coq Require Import String List Arith NArith ZArith Bool Lia Floats.SpecFloat Permutation.
Import ListNotations.

(** ** The error container *)

Definition cbounded (es : cerrs) : Prop := (N.of_nat (length (cpp_values es)) <= cpp_cap es)%N.

(** The errors are kept, others are added up to the capacity. *)
Definition cgrown (es es' : cerrs) : Prop :=
  cpp_cap es' = cpp_cap es /\ (exists l, cpp_values es' = cpp_values es ++ l) /\
  (cbounded es -> cbounded es').

Lemma cgrown_refl es : cgrown es es.
Proof. split; [reflexivity|]. split; [|auto]. exists []. rewrite app_nil_r. reflexivity. Qed.

Lemma cgrown_trans a b c : cgrown a b -> cgrown b c -> cgrown a c.
Proof.
  intros (H1 & [l1 H2] & B1) (H3 & [l2 H4] & B2). split; [congruence|]. split; [|auto].
  exists (l1 ++ l2). rewrite H4, H2, app_assoc. reflexivity.
Qed.

Lemma cgrown_add ref m es : cgrown es (cadd ref m es).
Proof.
  unfold cadd, cpp_add. destruct (N.ltb_spec (N.of_nat (length (cpp_values es))) (cpp_cap es)); [|apply cgrown_refl].
  split; [reflexivity|]. split; [eexists; reflexivity|].
  unfold cbounded. simpl. rewrite app_length. simpl. lia.
Qed.

Definition ckeeps {A} (m : CM A) : Prop :=
  forall es a es', m es = CDone (a, es') -> cgrown es es'.

Lemma ckeeps_ret {A} (a : A) : ckeeps (cret a).
Proof. intros es b es' H. injection H as <- <-. apply cgrown_refl. Qed.

Lemma ckeeps_panic {A} e : ckeeps (@cthrow A e).
Proof. intros es b es' H. discriminate. Qed.

Lemma ckeeps_report {A} ref m (a : A) : ckeeps (creport ref m a).
Proof. intros es b es' H. injection H as <- <-. apply cgrown_add. Qed.

Lemma ckeeps_bind {A B} (m : CM A) (f : A -> CM B) :
  ckeeps m -> (forall a, ckeeps (f a)) -> ckeeps (cbind m f).
Proof.
  intros Hm Hf es b es' H. unfold cbind in H.
  destruct (m es) as [[a es1]|e] eqn:E; [|discriminate].
  eapply cgrown_trans; [eapply Hm; exact E|eapply Hf; exact H].
Qed.

Lemma ckeeps_full {A} (a : A) (m : CM A) :
  ckeeps m -> ckeeps (fun es => if cpp_full es then CDone (a, es) else m es).
Proof.
  intros Hm es b es' H. destruct (cpp_full es).
  - injection H as <- <-. apply cgrown_refl.
  - eapply Hm. exact H.
Qed.

(** The empty container of a capacity. *)
Notation empty_errs cap := (@cpp_errors_new cerr cap).

Lemma empty_not_full cap : (0 < cap)%N -> cpp_full (empty_errs cap) = false.
Proof. unfold cpp_full. simpl. destruct cap; [lia|reflexivity]. Qed.

Lemma add_empty cap ref m : (0 < cap)%N -> cadd ref m (empty_errs cap) = CppErrors cap [CErr ref m].
Proof. unfold cadd, cpp_add. simpl. destruct cap; [lia|reflexivity]. Qed.

Lemma cgrown_empty es cap : cgrown es (empty_errs cap) -> es = empty_errs cap.
Proof.
  intros (H1 & [l H2] & _). destruct es as [c v]. simpl in *. subst.
  symmetry in H2. apply app_eq_nil in H2 as [-> _]. reflexivity.
Qed.

Lemma empty_iff es : cpp_empty es = true <-> es = empty_errs (cpp_cap es).
Proof.
  unfold cpp_empty, cpp_errors_new. destruct es as [c [|e l]]; simpl; split; intros H; congruence.
Qed.

(** Without errors, both parts of a sequence ran without errors. *)
Lemma cbind_clean {A B} (m : CM A) (f : A -> CM B) cap b :
  (forall a, ckeeps (f a)) -> cbind m f (empty_errs cap) = CDone (b, empty_errs cap) ->
  exists a, m (empty_errs cap) = CDone (a, empty_errs cap) /\ f a (empty_errs cap) = CDone (b, empty_errs cap).
Proof.
  intros Hf H. unfold cbind in H. destruct (m (empty_errs cap)) as [[a es1]|] eqn:E; [|discriminate].
  assert (es1 = empty_errs cap) by (apply cgrown_empty; eapply Hf; exact H). subst. eauto.
Qed.

Lemma cfull_clean {A} (a b : A) (m : CM A) cap : (0 < cap)%N ->
  (if cpp_full (empty_errs cap) then CDone (a, empty_errs cap) else m (empty_errs cap)) = CDone (b, empty_errs cap) ->
  m (empty_errs cap) = CDone (b, empty_errs cap).
Proof. intros H. rewrite empty_not_full by exact H. auto. Qed.

Lemma creport_clean {A} ref m (a b : A) cap P : (0 < cap)%N ->
  creport ref m a (empty_errs cap) = CDone (b, empty_errs cap) -> P.
Proof. intros H. unfold creport. rewrite add_empty by exact H. discriminate. Qed.

Lemma cret_clean {A} (a b : A) es es' : cret a es = CDone (b, es') -> a = b.
Proof. unfold cret. congruence. Qed.

Section Keeps.
  Variable X : cext.
  Variable G : graph.
  Variable order : forall A : Type, nat -> str -> list (str * A) -> list (str * A).

  Ltac k := repeat first
    [ apply ckeeps_ret | apply ckeeps_report | apply ckeeps_panic | apply ckeeps_full
    | apply ckeeps_bind; [|intros ?]
    | match goal with
      | |- ckeeps (match ?x with _ => _ end) => destruct x
      end ].

  Lemma ckeeps_bounds b cmp x ref : ckeeps (ccheck_bounds X b cmp x ref).
  Proof. unfold ccheck_bounds. k. Qed.

  Lemma ckeeps_items ps t ref : Forall (fun p : cparser X => forall t r, ckeeps (p t r)) ps ->
    forall i, ckeeps (cpp_items X ps t ref i).
  Proof. induction 1; intros i; simpl; k; auto. Qed.

  Lemma ckeeps_entries ps t ref :
    Forall (fun kp : str * cparser X => forall t r, ckeeps (snd kp t r)) ps ->
    forall target, ckeeps (cpp_entries X ps t ref target).
  Proof.
    induction 1 as [|[k0 p] ps Hp _ IH]; intros target; simpl; [apply ckeeps_ret|].
    apply ckeeps_bind; [apply Hp|]. intros x. apply ckeeps_full. apply IH.
  Qed.

  Definition members_keep (o : cmembers X) : Prop :=
    Forall (fun kp => forall t r, ckeeps (snd kp t r)) o.

  Lemma ckeeps_property p o ref fields : members_keep o -> ckeeps (cpp_property X p o ref fields).
  Proof.
    intros H. unfold cpp_property. destruct (lookup (p_json p) o) as [parse|] eqn:E; [|k].
    apply lookup_In in E. unfold members_keep in H. rewrite Forall_forall in H. specialize (H _ E). simpl in H. k. apply H.
  Qed.

  Lemma ckeeps_properties ps o ref : members_keep o ->
    forall fields, ckeeps (cpp_properties X ps o ref fields).
  Proof.
    intros H. induction ps as [|p ps IH]; intros fields; simpl; [apply ckeeps_ret|].
    apply ckeeps_bind; [apply ckeeps_property; exact H|]. intros. apply ckeeps_full. apply IH.
  Qed.

  Lemma ckeeps_composite ps v o ref fields : members_keep o -> ckeeps (cpp_composite X ps v o ref fields).
  Proof.
    intros H. unfold cpp_composite. destruct v; try apply ckeeps_report.
    apply ckeeps_properties. exact H.
  Qed.

  Hypothesis Hord : visits_all order.

  Lemma order_Forall {A} (P : str * A -> Prop) n r l : Forall P l -> Forall P (order A n r l).
  Proof.
    rewrite !Forall_forall. intros H x Hx. apply H.
    eapply Permutation_in; [symmetry; apply Hord|exact Hx].
  Qed.

  Lemma ckeeps_value R v : forall t ref, ckeeps (cpp_value X G order R v t ref).
  Proof.
    induction v as [| | | | |l IH|l IH] using jval_ind'; intros t ref.
    1-5: destruct t; simpl;
      unfold cpp_boolean, cpp_integer, cpp_float, cpp_string, cpp_date_time, cpp_time_zone, cpp_duration,
        cpp_reference; k; apply ckeeps_bounds.
    - destruct t; simpl;
      unfold cpp_boolean, cpp_integer, cpp_float, cpp_string, cpp_date_time, cpp_time_zone, cpp_duration,
        cpp_reference, cpp_array; k; try apply ckeeps_bounds.
      apply ckeeps_items. apply Forall_map. exact IH.
    - destruct t; simpl;
      unfold cpp_boolean, cpp_integer, cpp_float, cpp_string, cpp_date_time, cpp_time_zone, cpp_duration,
        cpp_reference; k; try apply ckeeps_bounds.
      + apply ckeeps_entries. apply order_Forall. apply Forall_map. exact IH.
      + apply ckeeps_properties. apply Forall_map. exact IH.
  Qed.

  Lemma members_of_keep R v : members_keep (cmembers_of X G order R v).
  Proof.
    destruct v; simpl; try constructor. apply Forall_map. apply Forall_forall.
    intros [k0 v] _. simpl. intros. apply ckeeps_value.
  Qed.

  Lemma ckeeps_allocate c ref ids : forall reg heap, ckeeps (cpp_allocate X c ref ids reg heap).
  Proof.
    induction ids as [|id ids IH]; intros reg heap; simpl; [apply ckeeps_ret|].
    destruct (c_id_pattern c); [|apply IH]. destruct (negb _); [|apply IH].
    apply ckeeps_bind; [apply ckeeps_report|]. intros. apply ckeeps_full. apply IH.
  Qed.

  Lemma ckeeps_preallocate l ref cs : forall R heap, ckeeps (cpp_preallocate X order cs l ref R heap).
  Proof.
    induction cs as [|c cs IH]; intros R heap; simpl; [apply ckeeps_ret|].
    apply ckeeps_bind.
    - destruct (lookup _ l) as [[]|]; k; apply ckeeps_allocate.
    - intros [? ?]. apply IH.
  Qed.

  Lemma ckeeps_instances c R reg ref l : forall heap, ckeeps (cpp_instances X G order c R reg ref l heap).
  Proof.
    induction l as [|[id v] l IH]; intros heap; simpl; [apply ckeeps_ret|].
    destruct (lookup id reg); [|apply ckeeps_panic]. destruct (nth_error heap _); [|apply ckeeps_panic].
    apply ckeeps_bind; [apply ckeeps_composite, members_of_keep|]. intros. apply ckeeps_full. apply IH.
  Qed.

  Lemma ckeeps_registries l ref R cs : forall heap, ckeeps (cpp_registries X G order cs l ref R heap).
  Proof.
    induction cs as [|c cs IH]; intros heap; simpl; [apply ckeeps_ret|].
    apply ckeeps_bind.
    - destruct (lookup _ l) as [[]|]; k; apply ckeeps_instances.
    - intros. apply ckeeps_full. apply IH.
  Qed.
End Keeps.
