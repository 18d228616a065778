(** C18: when the generated C++ parser throws, and how many errors it keeps. *)
From Verif Require Import Base M_Naming M_Errors M_Dec M_Schema M_Duration M_Num M_CppTime M_CppGen S_Conform S_Common S_CppGen P_Common
  P_CppBase P_CppParse P_CppGraph.
From Coq Require Import String List Arith NArith ZArith Bool Lia Permutation.
Import ListNotations.

Section Safe.
  Variable X : cext.
  Variable G : graph.
  Variable order : forall A : Type, nat -> str -> list (str * A) -> list (str * A).
  Hypothesis Hord : visits_all order.
  Hypothesis Hres : resolved G.
  (** Some text makes the conversion of durations throw. *)
  Variable D : Prop.

  Definition conly {A} (m : CM A) : Prop := forall es p, m es = CThrown p -> p = XDuration /\ D.

  Lemma conly_ret {A} (a : A) : conly (cret a).
  Proof. intros es p H. discriminate. Qed.
  Lemma conly_report {A} ref m (a : A) : conly (creport ref m a).
  Proof. intros es p H. discriminate. Qed.
  Lemma conly_bind {A B} (m : CM A) (f : A -> CM B) : conly m -> (forall a, conly (f a)) -> conly (cbind m f).
  Proof.
    intros Hm Hf es p H. unfold cbind in H. destruct (m es) as [[a es']|q] eqn:E.
    - eapply Hf. exact H.
    - injection H as <-. eapply Hm. exact E.
  Qed.
  Lemma conly_full {A} (a : A) (m : CM A) : conly m -> conly (fun es => if cpp_full es then CDone (a, es) else m es).
  Proof. intros Hm es p H. destruct (cpp_full es); [discriminate|]. eapply Hm. exact H. Qed.
  Lemma conly_bounds b cmp x ref : conly (ccheck_bounds X b cmp x ref).
  Proof.
    unfold ccheck_bounds. destruct (b_min b), (b_max b); repeat destruct (negb _);
      repeat first [apply conly_ret|apply conly_report|apply conly_bind; [|intros]].
  Qed.

  Definition conly_parser (p : cparser X) : Prop := forall t ref, ty_resolved G t -> conly (p t ref).

  Lemma conly_items t ref : ty_resolved G t -> forall ps i, Forall conly_parser ps -> conly (cpp_items X ps t ref i).
  Proof.
    intros Ht. induction ps as [|p ps IH]; intros i H; simpl; [apply conly_ret|]. inversion H; subst.
    apply conly_bind; [auto|]. intros x. apply conly_full. apply conly_bind; [auto|]. intros. apply conly_ret.
  Qed.

  Lemma conly_entries t ref : ty_resolved G t ->
    forall (ps : list (str * cparser X)) target, Forall (fun kp => conly_parser (snd kp)) ps ->
    conly (cpp_entries X ps t ref target).
  Proof.
    intros Ht. induction ps as [|[k p] ps IH]; intros target H; simpl; [apply conly_ret|]. inversion H; subst.
    apply conly_bind; [auto|]. intros x. apply conly_full. auto.
  Qed.

  Lemma conly_properties (o : cmembers X) ref : Forall (fun kp => conly_parser (snd kp)) o ->
    forall ps fields, (forall p, In p ps -> ty_resolved G (p_type p)) -> conly (cpp_properties X ps o ref fields).
  Proof.
    intros Ho. induction ps as [|p ps IH]; intros fields H; simpl; [apply conly_ret|].
    apply conly_bind; [|intros; apply conly_full; apply IH; intros q Hq; apply H; right; exact Hq].
    unfold cpp_property. destruct (lookup (p_json p) o) as [parse|] eqn:E.
    - apply conly_bind; [|intros; apply conly_ret]. apply lookup_In in E. rewrite Forall_forall in Ho.
      apply (Ho _ E). apply H. left. reflexivity.
    - destruct (p_optional p); [apply conly_ret|apply conly_report].
  Qed.

  Lemma conly_composite ps v (o : cmembers X) ref fields :
    (forall p, In p ps -> ty_resolved G (p_type p)) -> Forall (fun kp => conly_parser (snd kp)) o ->
    conly (cpp_composite X ps v o ref fields).
  Proof.
    intros H Ho es p. unfold cpp_composite.
    destruct v; try apply conly_report. apply conly_properties; assumption.
  Qed.

  Lemma embed_resolved n e : find_embed G n = Some e -> forall p, In p (e_props e) -> ty_resolved G (p_type p).
  Proof. intros E p Hp. eapply Hres; [|exact Hp]. eapply embed_composite. exact E. Qed.

  Lemma conly_duration v ref : (~ no_throw X v -> D) -> conly (cpp_duration X v ref).
  Proof.
    intros HD es p. unfold cpp_duration. destruct v; try apply conly_report.
    destruct (cpp_dur_from (cx_flag X s) s) eqn:E; [apply conly_ret|apply conly_report|].
    intros H. injection H as <-. split; [reflexivity|]. apply HD. intros N. inversion N. congruence.
  Qed.

  Lemma conly_value R v : (~ no_throw X v -> D) -> conly_parser (cpp_value X G order R v).
  Proof.
    induction v as [| | | | |l IH|l IH] using jval_ind'; intros HD t ref Ht;
      destruct t; simpl in *;
      unfold cpp_boolean, cpp_integer, cpp_float, cpp_string, cpp_date_time, cpp_time_zone, cpp_reference, cpp_array;
      repeat match goal with
        | |- conly (match cpp_dur_from _ _ with _ => _ end) => fail 1
        | |- conly (match ?x with _ => _ end) => destruct x eqn:?
        end;
      try congruence; try apply conly_bounds; try apply conly_ret; try apply conly_report;
      try solve [apply conly_bind; [apply conly_report|intros; apply conly_ret]].
    - apply (conly_duration (JStr s) ref HD).
    - apply conly_bind; [|intros; apply conly_ret]. apply conly_items; [exact Ht|]. apply Forall_map.
      rewrite Forall_forall in *. intros v Hv. apply (IH v Hv). intros N. apply HD. intros C. apply N.
      inversion C; auto.
    - apply conly_bind; [|intros; apply conly_ret]. apply conly_entries; [exact Ht|]. apply order_Forall; [exact Hord|].
      apply Forall_map. rewrite Forall_forall in *. intros [k v] Hv. apply (IH _ Hv). intros N. apply HD.
      intros C. apply N. inversion C; eauto.
    - apply conly_bind; [|intros; apply conly_ret]. apply conly_properties; [|eapply embed_resolved; eassumption].
      apply Forall_map. rewrite Forall_forall in *. intros [k v] Hv. apply (IH _ Hv). intros N. apply HD.
      intros C. apply N. inversion C; eauto.
  Qed.

  Lemma conly_members R v : (~ no_throw X v -> D) -> Forall (fun kp => conly_parser (snd kp)) (cmembers_of X G order R v).
  Proof.
    intros HD. destruct v; simpl; try constructor. apply Forall_map. apply Forall_forall. intros [k v] Hv. apply conly_value.
    intros N. apply HD. intros C. apply N. inversion C; eauto.
  Qed.

  Lemma conly_instances c R (reg : list (str * addr)) ref : In c (g_classes G) ->
    forall l heap, (forall k v, In (k, v) l -> ~ no_throw X v -> D) ->
    (forall id, In id (keys l) -> exists a, lookup id reg = Some a /\ a < length heap) ->
    conly (cpp_instances X G order c R reg ref l heap).
  Proof.
    intros Hc. induction l as [|[id v] l IH]; intros heap HD H; simpl; [apply conly_ret|].
    destruct (H id (or_introl eq_refl)) as (a & L & La). rewrite L.
    destruct (nth_error heap a) as [i|] eqn:E; [|apply nth_error_None in E; lia].
    apply conly_bind.
    - apply conly_composite; [|apply conly_members; eapply HD; left; reflexivity]. intros p Hp. eapply Hres; [|exact Hp].
      apply class_composite. exact Hc.
    - intros fields. apply conly_full. apply IH; [intros k w Hw; apply (HD k); right; exact Hw|].
      intros j Hj. destruct (H j (or_intror Hj)) as (b & Lb & Hb).
      exists b. split; [exact Lb|]. rewrite set_obj_length; assumption.
  Qed.

  Lemma instances_length c R (reg : list (str * addr)) ref : forall l0 heap es heap' es',
    cpp_instances X G order c R reg ref l0 heap es = CDone (heap', es') -> length heap' = length heap.
  Proof.
    induction l0 as [|[id v] l0 IH]; intros heap es heap' es' Hh; simpl in Hh.
    - injection Hh as <- _. reflexivity.
    - destruct (lookup id reg) as [a|]; [|discriminate Hh].
      destruct (nth_error heap a) as [i|] eqn:E; [|discriminate Hh].
      unfold cbind in Hh. destruct (cpp_composite _ _ _ _ _ _ es) as [[fs es1]|]; [|discriminate Hh].
      assert (Hl : length (cset_obj X a (CObj (i_class i) (i_id i) fs) heap) = length heap)
        by (apply set_obj_length; apply nth_error_Some; congruence).
      destruct (cpp_full es1); [injection Hh as <- _; exact Hl|]. apply IH in Hh. congruence.
  Qed.

  Lemma conly_registries l ref R : (~ no_throw X (JObj l) -> D) -> forall cs heap, incl cs (g_classes G) ->
    (forall c, In c cs -> lookup (cpp_cls_key c) l = None \/
       exists m, lookup (cpp_cls_key c) l = Some (JObj m) /\
         forall id, In id (keys m) -> exists a, lookup id (cregistry R c) = Some a /\ a < length heap) ->
    conly (cpp_registries X G order cs l ref R heap).
  Proof.
    intros HD. induction cs as [|c cs IH]; intros heap Inc H; simpl; [apply conly_ret|].
    fold (cregistry R c).
    assert (Tail : forall heap', length heap' = length heap -> forall es p,
      (if cpp_full es then CDone (None, es) else cpp_registries X G order cs l ref R heap' es) = CThrown p -> p = XDuration /\ D).
    { intros heap' Hl es p Hp. destruct (cpp_full es); [discriminate|].
      eapply IH; [| |exact Hp]; [intros c' Hc'; apply Inc; right; exact Hc'|].
      rewrite Hl. intros c' Hc'. apply H. right. exact Hc'. }
    intros es p Hp. unfold cbind in Hp.
    destruct (H c (or_introl eq_refl)) as [E|(m & E & Hm)]; unfold cpp_cls_key in E; rewrite E in Hp.
    - eapply Tail; [reflexivity|exact Hp].
    - match type of Hp with match ?m with _ => _ end = _ => destruct m as [[heap' es']|q] eqn:Ei end.
      + eapply Tail; [|exact Hp]. eapply instances_length. exact Ei.
      + injection Hp as <-. cbn [iterated] in Ei.
        pose proof (Hord _ 2 (cslash ref (cpp_key (c_plural c))) m) as Pm.
        eapply conly_instances; [| | |exact Ei]; [apply Inc; left; reflexivity| |].
        * intros k v Hv N. apply HD. intros C. apply N. apply (Permutation_in _ (Permutation_sym Pm)) in Hv.
          inversion C as [| | | | | |? Cl]; subst. apply lookup_In in E. apply Cl in E. inversion E; eauto.
        * intros id Hid. apply Hm. eapply Permutation_in; [|exact Hid].
          symmetry. apply Permutation_keys. exact Pm.
  Qed.

  Lemma allocate_done c ref : forall ids reg heap es, exists r es', cpp_allocate X c ref ids reg heap es = CDone (r, es').
  Proof.
    induction ids as [|id ids IH]; intros reg heap es; simpl; [do 2 eexists; reflexivity|].
    destruct (c_id_pattern c); [destruct (negb _)|]; try apply IH.
    unfold cbind, creport. destruct (cpp_full _); [do 2 eexists; reflexivity|apply IH].
  Qed.

  Lemma preallocate_done l ref : forall cs R heap es,
    exists r es', cpp_preallocate X order cs l ref R heap es = CDone (r, es').
  Proof.
    induction cs as [|c cs IH]; intros R heap es; simpl; [do 2 eexists; reflexivity|].
    unfold cbind, cret, creport. destruct (lookup (cpp_key (c_plural c)) l) as [[]|]; try apply IH.
    match goal with |- context [cpp_allocate X c ref ?a ?b heap es] =>
      destruct (allocate_done c ref a b heap es) as ([reg heap'] & es' & ->) end.
    apply IH.
  Qed.

  Hypothesis Hfields : cfields_distinct G.

  Theorem graph_only v ref cap p : (0 < cap)%N -> json_wf v -> (~ no_throw X v -> D) ->
    cpp_graph_from X G order v ref (empty_errs cap) = CThrown p -> p = XDuration /\ D.
  Proof.
    intros Hcap W HD. unfold cpp_graph_from. simpl. destruct v as [| | | | | |l]; try (apply conly_report).
    destruct (preallocate_done l ref (g_classes G) [] [] (empty_errs cap)) as ([R heap] & es & E).
    unfold cbind at 1. rewrite E.
    destruct (_ && _) eqn:T; [discriminate|]. intros H.
    assert (Es : es = empty_errs cap).
    { destruct (g_classes G) as [|c cs] eqn:Ec.
      - simpl in E. injection E as <- <- <-. reflexivity.
      - simpl in T. apply negb_false_iff in T. apply empty_iff in T.
        assert (K : cgrown (empty_errs cap) es) by (eapply ckeeps_preallocate; exact E).
        destruct K as [K _]. rewrite K in T. exact T. }
    subst es.
    pose proof E as I. apply (preallocate_sound X order Hord cap Hcap l ref W) with (dn := []) in I;
      [|exact (proj2 Hfields)|apply inv_init]. simpl in I.
    revert H. apply conly_bind.
    - apply conly_registries; [exact HD|intros c Hc; exact Hc|]. intros c Hc.
      destruct (inv_reg _ _ _ _ _ I c Hc) as [[E' _]|(m & E' & K)]; [left; exact E'|].
      right. exists m. split; [exact E'|]. intros id Hid.
      apply K in Hid. apply lookup_key_Some in Hid as [a La].
      exists a. split; [exact La|]. apply nth_error_Some.
      apply lookup_In in La. destruct (inv_obj _ _ _ _ _ I c id a Hc La) as [_ Hn]. congruence.
    - intros [heap'|]; [|apply conly_ret]. apply conly_bind; [|intros; apply conly_ret].
      apply (conly_properties (cmembers_of X G order R (JObj l))); [apply conly_members; exact HD|].
      intros q Hq. eapply Hres; [|exact Hq].
      unfold composites. rewrite !in_app_iff. right. right. left. reflexivity.
  Qed.
End Safe.

(** The errors of the parser, whatever it returns. *)
Lemma graph_grown X G order v ref es r es' : visits_all order ->
  cpp_graph_from X G order v ref es = CDone (r, es') -> cgrown es es'.
Proof.
  intros Ho H. unfold cpp_graph_from in H. destruct (negb (cpp_empty es)); [discriminate|].
  destruct v as [| | | | | |l]; try (eapply ckeeps_report; exact H).
  revert H. apply ckeeps_bind; [apply ckeeps_preallocate|].
  intros [R heap] es1 r1 es2 H. destruct (_ && _).
  - injection H as <- <-. apply cgrown_refl.
  - revert H. apply ckeeps_bind; [apply ckeeps_registries; exact Ho|].
    intros [?|]; [|apply ckeeps_ret]. apply ckeeps_bind; [|intros; apply ckeeps_ret].
    apply (ckeeps_properties X _ (cmembers_of X G order R (JObj l))). apply members_of_keep. exact Ho.
Qed.
