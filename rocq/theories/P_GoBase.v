(** Basic facts about the generated Go parser: errors only grow; numbers. *)
From Verif Require Import Base M_Naming M_Errors M_Dec M_Schema M_Strftime M_Duration M_Num M_GoGen S_Conform S_Common S_GoGen P_Common.
From Coq Require Import String List Arith NArith ZArith Bool Lia Floats.SpecFloat Permutation.
Import ListNotations.

(** ** The error container *)

Definition ggrown (es es' : gerrs) : Prop :=
  go_cap es' = go_cap es /\ exists l, go_values es' = go_values es ++ l.

Lemma ggrown_refl es : ggrown es es.
Proof. split; [reflexivity|]. exists []. rewrite app_nil_r. reflexivity. Qed.

Lemma ggrown_trans a b c : ggrown a b -> ggrown b c -> ggrown a c.
Proof.
  intros [H1 [l1 H2]] [H3 [l2 H4]]. split; [congruence|].
  exists (l1 ++ l2). rewrite H4, H2, app_assoc. reflexivity.
Qed.

Lemma ggrown_add ref m es : ggrown es (gadd ref m es).
Proof.
  unfold gadd, go_add. destruct (_ || _); [|apply ggrown_refl].
  split; [reflexivity|]. eexists. reflexivity.
Qed.

Definition gkeeps {A} (m : GM A) : Prop :=
  forall es a es', m es = Done (a, es') -> ggrown es es'.

Lemma gkeeps_ret {A} (a : A) : gkeeps (gret a).
Proof. intros es b es' H. injection H as <- <-. apply ggrown_refl. Qed.

Lemma gkeeps_panic {A} e : gkeeps (@gpanic A e).
Proof. intros es b es' H. discriminate. Qed.

Lemma gkeeps_report {A} ref m (a : A) : gkeeps (greport ref m a).
Proof. intros es b es' H. injection H as <- <-. apply ggrown_add. Qed.

Lemma gkeeps_bind {A B} (m : GM A) (f : A -> GM B) :
  gkeeps m -> (forall a, gkeeps (f a)) -> gkeeps (gbind m f).
Proof.
  intros Hm Hf es b es' H. unfold gbind in H.
  destruct (m es) as [[a es1]|e] eqn:E; [|discriminate].
  eapply ggrown_trans; [eapply Hm; exact E|eapply Hf; exact H].
Qed.

Lemma gkeeps_full {A} (a : A) (m : GM A) :
  gkeeps m -> gkeeps (fun es => if go_full es then Done (a, es) else m es).
Proof.
  intros Hm es b es' H. destruct (go_full es).
  - injection H as <- <-. apply ggrown_refl.
  - eapply Hm. exact H.
Qed.

(** The empty container of a capacity. *)
Notation empty_errs cap := (@go_errors_new gerr cap).

Lemma empty_not_full cap : go_full (empty_errs cap) = false.
Proof. unfold go_full. simpl. destruct cap; reflexivity. Qed.

Lemma add_empty cap ref m : gadd ref m (empty_errs cap) = GoErrors cap [GErr ref m].
Proof. unfold gadd, go_add. simpl. destruct cap; reflexivity. Qed.

Lemma ggrown_empty es cap : ggrown es (empty_errs cap) -> es = empty_errs cap.
Proof.
  intros [H1 [l H2]]. destruct es as [c v]. simpl in *. subst.
  symmetry in H2. apply app_eq_nil in H2 as [-> _]. reflexivity.
Qed.

Lemma empty_iff es : go_empty es = true <-> es = empty_errs (go_cap es).
Proof.
  unfold go_empty, go_errors_new. destruct es as [c [|e l]]; simpl; split; intros H; congruence.
Qed.

(** Without errors, both parts of a sequence ran without errors. *)
Lemma gbind_clean {A B} (m : GM A) (f : A -> GM B) cap b :
  (forall a, gkeeps (f a)) -> gbind m f (empty_errs cap) = Done (b, empty_errs cap) ->
  exists a, m (empty_errs cap) = Done (a, empty_errs cap) /\ f a (empty_errs cap) = Done (b, empty_errs cap).
Proof.
  intros Hf H. unfold gbind in H. destruct (m (empty_errs cap)) as [[a es1]|] eqn:E; [|discriminate].
  assert (es1 = empty_errs cap) by (apply ggrown_empty; eapply Hf; exact H). subst. eauto.
Qed.

Lemma gfull_clean {A} (a b : A) (m : GM A) cap :
  (if go_full (empty_errs cap) then Done (a, empty_errs cap) else m (empty_errs cap)) = Done (b, empty_errs cap) ->
  m (empty_errs cap) = Done (b, empty_errs cap).
Proof. rewrite empty_not_full. auto. Qed.

Lemma greport_clean {A} ref m (a b : A) cap P :
  greport ref m a (empty_errs cap) = Done (b, empty_errs cap) -> P.
Proof. unfold greport. rewrite add_empty. discriminate. Qed.

Lemma gret_clean {A} (a b : A) es es' : gret a es = Done (b, es') -> a = b.
Proof. unfold gret. congruence. Qed.

Section Keeps.
  Variable X : gext.
  Variable G : graph.
  Variable order : forall A : Type, nat -> str -> list (str * A) -> list (str * A).

  Ltac k := repeat first
    [ apply gkeeps_ret | apply gkeeps_report | apply gkeeps_panic | apply gkeeps_full
    | apply gkeeps_bind; [|intros ?]
    | match goal with
      | |- gkeeps (match ?x with _ => _ end) => destruct x
      end ].

  Lemma gkeeps_bounds b cmp x ref : gkeeps (gcheck_bounds X b cmp x ref).
  Proof. unfold gcheck_bounds. k. Qed.

  Lemma gkeeps_items ps t ref : Forall (fun p : gparser X => forall t r, gkeeps (p t r)) ps ->
    forall i, gkeeps (go_items X ps t ref i).
  Proof. induction 1; intros i; simpl; k; auto. Qed.

  Lemma gkeeps_entries ps t ref :
    Forall (fun kp : str * gparser X => forall t r, gkeeps (snd kp t r)) ps ->
    forall target, gkeeps (go_entries X ps t ref target).
  Proof.
    induction 1 as [|[k0 p] ps Hp _ IH]; intros target; simpl; [apply gkeeps_ret|].
    apply gkeeps_bind; [apply Hp|]. intros x. apply gkeeps_full. apply IH.
  Qed.

  Definition members_keep (o : gmembers X) : Prop :=
    Forall (fun kp => forall t r, gkeeps (snd kp t r)) o.

  Lemma gkeeps_property p o ref fields : members_keep o -> gkeeps (go_property X p o ref fields).
  Proof.
    intros H. unfold go_property. destruct (lookup (p_json p) o) as [parse|] eqn:E; [|k].
    apply lookup_In in E. unfold members_keep in H. rewrite Forall_forall in H. specialize (H _ E). simpl in H. k. apply H.
  Qed.

  Lemma gkeeps_properties ps o ref : members_keep o ->
    forall fields, gkeeps (go_properties X ps o ref fields).
  Proof.
    intros H. induction ps as [|p ps IH]; intros fields; simpl; [apply gkeeps_ret|].
    apply gkeeps_bind; [apply gkeeps_property; exact H|]. intros. apply gkeeps_full. apply IH.
  Qed.

  Lemma gkeeps_composite ps v o ref fields : members_keep o -> gkeeps (go_composite X ps v o ref fields).
  Proof.
    intros H es a es'. unfold go_composite. destruct (negb (go_empty es)); [discriminate|].
    destruct v; try apply gkeeps_report. apply gkeeps_properties. exact H.
  Qed.

  Hypothesis Hord : visits_all order.

  Lemma order_Forall {A} (P : str * A -> Prop) n r l : Forall P l -> Forall P (order A n r l).
  Proof.
    rewrite !Forall_forall. intros H x Hx. apply H.
    eapply Permutation_in; [symmetry; apply Hord|exact Hx].
  Qed.

  Lemma gkeeps_value R v : forall t ref, gkeeps (go_value X G order R v t ref).
  Proof.
    induction v as [| | | | |l IH|l IH] using jval_ind'; intros t ref.
    1-5: destruct t; simpl;
      unfold go_boolean, go_integer, go_float, go_string, go_date_time, go_time_zone, go_duration,
        go_reference; k; try apply gkeeps_bounds; apply gkeeps_composite; constructor.
    - destruct t; simpl;
      unfold go_boolean, go_integer, go_float, go_string, go_date_time, go_time_zone, go_duration,
        go_reference, go_array; k; try apply gkeeps_bounds; try (apply gkeeps_composite; constructor).
      apply gkeeps_items. apply Forall_map. exact IH.
    - destruct t; simpl;
      unfold go_boolean, go_integer, go_float, go_string, go_date_time, go_time_zone, go_duration,
        go_reference; k; try apply gkeeps_bounds.
      + apply gkeeps_entries. apply order_Forall. apply Forall_map. exact IH.
      + apply gkeeps_composite. apply Forall_map. exact IH.
  Qed.

  Lemma members_of_keep R v : members_keep (gmembers_of X G order R v).
  Proof.
    destruct v; simpl; try constructor. apply Forall_map. apply Forall_forall.
    intros [k0 v] _. simpl. intros. apply gkeeps_value.
  Qed.

  Lemma gkeeps_allocate c ref ids : forall reg heap, gkeeps (go_allocate X c ref ids reg heap).
  Proof.
    induction ids as [|id ids IH]; intros reg heap; simpl; [apply gkeeps_ret|].
    destruct (c_id_pattern c); [|apply IH]. destruct (negb _); [|apply IH].
    apply gkeeps_bind; [apply gkeeps_report|]. intros. apply IH.
  Qed.

  Lemma gkeeps_preallocate l ref cs : forall R heap, gkeeps (go_preallocate X order cs l ref R heap).
  Proof.
    induction cs as [|c cs IH]; intros R heap; simpl; [apply gkeeps_ret|].
    apply gkeeps_bind.
    - destruct (lookup _ l) as [[]|]; k; apply gkeeps_allocate.
    - intros [? ?]. apply IH.
  Qed.

  Lemma gkeeps_instances c R reg ref l : forall heap, gkeeps (go_instances X G order c R reg ref l heap).
  Proof.
    induction l as [|[id v] l IH]; intros heap; simpl; [apply gkeeps_ret|].
    destruct (lookup id reg); [|apply gkeeps_panic]. destruct (nth_error heap _); [|apply gkeeps_panic].
    apply gkeeps_bind; [apply gkeeps_composite, members_of_keep|]. intros. apply gkeeps_full. apply IH.
  Qed.

  Lemma gkeeps_registries l ref R cs : forall heap, gkeeps (go_registries X G order cs l ref R heap).
  Proof.
    induction cs as [|c cs IH]; intros heap; simpl; [apply gkeeps_ret|].
    apply gkeeps_bind.
    - destruct (lookup _ l) as [[]|]; k; apply gkeeps_instances.
    - intros. apply gkeeps_full. apply IH.
  Qed.
End Keeps.
