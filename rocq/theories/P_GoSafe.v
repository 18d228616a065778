(** C15: when the generated Go parser does not panic. *)
From Verif Require Import Base M_Naming M_Errors M_Dec M_Schema M_Strftime M_Duration M_Num M_GoGen S_Conform S_Common S_GoGen P_Common
  P_GoBase P_GoParse P_GoGraph.
From Coq Require Import String List Arith NArith ZArith Bool Lia Permutation.
Import ListNotations.

(** ** With room for one error *)

Notation es1 := (empty_errs 1%N).

Definition settled (es : gerrs) : Prop := es = es1 \/ (go_full es = true /\ length (go_values es) = 1).
(** Started without errors, the computation does not panic and leaves at most one error. *)
Definition gsafe {A} (m : GM A) : Prop := exists a es, m es1 = Done (a, es) /\ settled es.

Lemma gsafe_ret {A} (a : A) : gsafe (gret a).
Proof. exists a, es1. split; [reflexivity|left; reflexivity]. Qed.
Lemma gsafe_report {A} ref m (a : A) : gsafe (greport ref m a).
Proof. eexists a, _. unfold greport. rewrite add_empty. split; [reflexivity|]. right. split; reflexivity. Qed.
Lemma gsafe_bind_ret {A B} (m : GM A) (f : A -> B) : gsafe m -> gsafe (gdo x <- m; gret (f x)).
Proof. intros (a & es & E & H). exists (f a), es. unfold gbind. rewrite E. split; [reflexivity|exact H]. Qed.
Lemma gsafe_bind_full {A B} (m : GM A) (g : A -> B) (f : A -> GM B) : gsafe m -> (forall a, gsafe (f a)) ->
  gsafe (gdo x <- m; fun es => if go_full es then Done (g x, es) else f x es).
Proof.
  intros (a & es & E & H) Hf. unfold gsafe, gbind. rewrite E. destruct H as [->|[F L]].
  - rewrite empty_not_full. apply Hf.
  - rewrite F. exists (g a), es. split; [reflexivity|right; auto].
Qed.

Section Safe.
  Variable X : gext.
  Variable G : graph.
  Variable order : forall A : Type, nat -> str -> list (str * A) -> list (str * A).
  Hypothesis Hord : visits_all order.
  Hypothesis Hres : resolved G.

  Lemma gsafe_bounds b cmp x ref : gsafe (gcheck_bounds X b cmp x ref).
  Proof.
    unfold gcheck_bounds. destruct (b_min b), (b_max b); repeat destruct (negb _);
      first [apply gsafe_ret|apply gsafe_report].
  Qed.

  Definition gsafe_parser (p : gparser X) : Prop := forall t ref, ty_resolved G t -> gsafe (p t ref).

  Lemma gsafe_items t ref : ty_resolved G t -> forall ps i, Forall gsafe_parser ps -> gsafe (go_items X ps t ref i).
  Proof.
    intros Ht. induction ps as [|p ps IH]; intros i H; simpl; [apply gsafe_ret|]. inversion H; subst.
    apply (gsafe_bind_full (p t (gslash ref (dec_nat i))) (fun x => x :: map (fun _ => GZero) ps)
             (fun x => gdo xs <- go_items X ps t ref (S i); gret (x :: xs))); [auto|].
    intros x. apply gsafe_bind_ret. apply IH. assumption.
  Qed.

  Lemma gsafe_entries t ref : ty_resolved G t ->
    forall (ps : list (str * gparser X)) target, Forall (fun kp => gsafe_parser (snd kp)) ps ->
    gsafe (go_entries X ps t ref target).
  Proof.
    intros Ht. induction ps as [|[k p] ps IH]; intros target H; simpl; [apply gsafe_ret|]. inversion H; subst.
    apply (gsafe_bind_full (p t (gslash ref k)) (fun x => upsert k x target)
             (fun x => go_entries X ps t ref (upsert k x target))); [auto|].
    intros x. apply IH. assumption.
  Qed.

  Lemma gsafe_properties (o : gmembers X) ref : Forall (fun kp => gsafe_parser (snd kp)) o ->
    forall ps fields, (forall p, In p ps -> ty_resolved G (p_type p)) -> gsafe (go_properties X ps o ref fields).
  Proof.
    intros Ho. induction ps as [|p ps IH]; intros fields H; simpl; [apply gsafe_ret|].
    apply (gsafe_bind_full (go_property X p o ref fields) (fun f => f) (fun f => go_properties X ps o ref f)).
    - unfold go_property. destruct (lookup (p_json p) o) as [parse|] eqn:E.
      + apply gsafe_bind_ret. apply lookup_In in E. rewrite Forall_forall in Ho. apply (Ho _ E). apply H. left. reflexivity.
      + destruct (p_optional p); [apply gsafe_ret|apply gsafe_report].
    - intros f. apply IH. intros q Hq. apply H. right. exact Hq.
  Qed.

  Lemma gsafe_composite ps v (o : gmembers X) ref fields :
    (forall p, In p ps -> ty_resolved G (p_type p)) -> Forall (fun kp => gsafe_parser (snd kp)) o ->
    gsafe (go_composite X ps v o ref fields).
  Proof.
    intros H Ho. unfold gsafe, go_composite. simpl. destruct v; try apply gsafe_report. apply gsafe_properties; assumption.
  Qed.

  Lemma embed_resolved n e : find_embed G n = Some e -> forall p, In p (e_props e) -> ty_resolved G (p_type p).
  Proof. intros E p Hp. eapply Hres; [|exact Hp]. eapply embed_composite. exact E. Qed.

  Lemma gsafe_value R v : gsafe_parser (go_value X G order R v).
  Proof.
    induction v as [| | | | |l IH|l IH] using jval_ind'; intros t ref Ht.
    1-5: destruct t; simpl in *;
      unfold go_boolean, go_integer, go_float, go_string, go_date_time, go_time_zone, go_duration, go_reference;
      repeat match goal with |- gsafe (match ?x with _ => _ end) => destruct x eqn:? end;
      try congruence; try apply gsafe_bounds; try apply gsafe_ret; try apply gsafe_report;
      try solve [apply gsafe_bind_ret, gsafe_composite; [eapply embed_resolved; eassumption|constructor]].
    - destruct t; simpl in *;
      unfold go_boolean, go_integer, go_float, go_string, go_date_time, go_time_zone, go_duration, go_reference, go_array;
      repeat match goal with |- gsafe (match ?x with _ => _ end) => destruct x eqn:? end;
      try congruence; try apply gsafe_bounds; try apply gsafe_ret; try apply gsafe_report; apply gsafe_bind_ret.
      apply gsafe_items; [exact Ht|]; apply Forall_map; exact IH.
    - destruct t; simpl in *;
      unfold go_boolean, go_integer, go_float, go_string, go_date_time, go_time_zone, go_duration, go_reference;
      repeat match goal with |- gsafe (match ?x with _ => _ end) => destruct x eqn:? end;
      try congruence; try apply gsafe_bounds; try apply gsafe_ret; try apply gsafe_report; apply gsafe_bind_ret.
      + apply gsafe_entries; [exact Ht|]. apply order_Forall; [exact Hord|]. apply Forall_map. exact IH.
      + apply gsafe_composite; [eapply embed_resolved; eassumption|]. apply Forall_map. exact IH.
  Qed.

  Lemma gsafe_members R v : Forall (fun kp => gsafe_parser (snd kp)) (gmembers_of X G order R v).
  Proof.
    destruct v; simpl; try constructor. apply Forall_map. apply Forall_forall. intros [k v] _. apply gsafe_value.
  Qed.

  Lemma gsafe_instances c R (reg : list (str * addr)) ref : In c (g_classes G) ->
    forall l heap, (forall id, In id (keys l) -> exists a, lookup id reg = Some a /\ a < length heap) ->
    gsafe (go_instances X G order c R reg ref l heap).
  Proof.
    intros Hc. induction l as [|[id v] l IH]; intros heap H; simpl; [apply gsafe_ret|].
    destruct (H id (or_introl eq_refl)) as (a & L & La). rewrite L.
    destruct (nth_error heap a) as [i|] eqn:E; [|apply nth_error_None in E; lia].
    set (id' := match v with JObj _ => id | _ => o_id i end).
    apply (gsafe_bind_full
      (go_composite X (c_props c) v (gmembers_of X G order R v) (gslash (gslash ref (go_key (c_plural c))) id) (o_fields i))
      (fun fields => set_obj X a (GObj (o_class i) id' fields) heap)
      (fun fields => go_instances X G order c R reg ref l (set_obj X a (GObj (o_class i) id' fields) heap))).
    - apply gsafe_composite; [|apply gsafe_members]. intros p Hp. eapply Hres; [|exact Hp].
      apply class_composite. exact Hc.
    - intros fields. apply IH. intros j Hj. destruct (H j (or_intror Hj)) as (b & Lb & Hb).
      exists b. split; [exact Lb|]. rewrite set_obj_length; assumption.
  Qed.

  Lemma gsafe_registries l ref R : forall cs heap, incl cs (g_classes G) ->
    (forall c m, In c cs -> lookup (go_cls_key c) l = Some (JObj m) ->
       forall id, In id (keys m) -> exists a, lookup id (registry R c) = Some a /\ a < length heap) ->
    gsafe (go_registries X G order cs l ref R heap).
  Proof.
    induction cs as [|c cs IH]; intros heap Inc H; simpl; [apply gsafe_ret|].
    assert (L : forall l0 heap es heap' es', go_instances X G order c R (registry R c) ref l0 heap es = Done (heap', es') -> length heap' = length heap).
    { clear. induction l0 as [|[id v] l0 IH]; intros heap es heap' es' Hh; simpl in Hh.
      - injection Hh as <- _. reflexivity.
      - destruct (lookup id (registry R c)) as [a|]; [|discriminate Hh].
        destruct (nth_error heap a) as [i|] eqn:E; [|discriminate Hh].
        unfold gbind in Hh. destruct (go_composite _ _ _ _ _ _ es) as [[fs es1]|]; [|discriminate Hh].
        assert (Hl : length (set_obj X a (GObj (o_class i) match v with JObj _ => id | _ => o_id i end fs) heap) = length heap)
          by (apply set_obj_length; apply nth_error_Some; congruence).
        destruct (go_full es1); [injection Hh as <- _; exact Hl|]. apply IH in Hh. congruence. }
    set (m := match lookup (go_key (c_plural c)) l with
              | Some (JObj m) => go_instances X G order c R (registry R c) ref
                  (order jval 2 (gslash ref (go_key (c_plural c))) m) heap
              | _ => gret heap end).
    assert (S : gsafe m /\ forall heap' es', m es1 = Done (heap', es') -> length heap' = length heap).
    { assert (S0 : gsafe (gret heap) /\ forall heap' es', gret heap es1 = Done (heap', es') -> length heap' = length heap).
      { split; [apply gsafe_ret|]. intros ? ? E. injection E as <- _. reflexivity. }
      unfold m. destruct (lookup (go_key (c_plural c)) l) as [[]|] eqn:E; try exact S0. split; [|apply L].
      apply gsafe_instances; [apply Inc; left; reflexivity|].
      intros id Hid. apply (H c l0 (or_introl eq_refl) E). eapply Permutation_in; [|exact Hid].
      symmetry. apply Permutation_keys, Hord. }
    destruct S as [(heap' & es & E & St) Hl]. unfold gsafe, gbind. unfold registry in m. fold m. rewrite E.
    destruct St as [->|[F Le]].
    - rewrite empty_not_full. apply IH; [intros c' Hc'; apply Inc; right; exact Hc'|].
      rewrite (Hl _ _ E). intros c' m' Hc'. apply H. right. exact Hc'.
    - rewrite F. exists None, es. split; [reflexivity|right; auto].
  Qed.

  Lemma allocate_done c ref : forall ids reg heap es, exists r es', go_allocate X c ref ids reg heap es = Done (r, es').
  Proof.
    induction ids as [|id ids IH]; intros reg heap es; simpl; [do 2 eexists; reflexivity|].
    destruct (c_id_pattern c); [destruct (negb _)|]; apply IH.
  Qed.

  Lemma preallocate_done l ref : forall cs R heap es,
    exists r es', go_preallocate X order cs l ref R heap es = Done (r, es').
  Proof.
    induction cs as [|c cs IH]; intros R heap es; simpl; [do 2 eexists; reflexivity|].
    unfold gbind, gret, greport. destruct (lookup (go_key (c_plural c)) l) as [[]|]; try apply IH.
    destruct (allocate_done c ref (keys (order jval 1 (gslash ref (go_key (c_plural c))) l0)) [] heap es) as ([reg heap'] & es' & ->).
    apply IH.
  Qed.

  Hypothesis Hfields : fields_distinct G.

  Lemma grown_full es es' : go_cap es = 1%N -> go_full es = true -> ggrown es es' ->
    length (go_values es') <= 1 -> es' = es.
  Proof.
    intros C F [C' [l Hl]] L. unfold go_full in F. rewrite C in F. simpl in F. apply N.eqb_eq in F.
    destruct es as [c v], es' as [c' v']. simpl in *. subst. rewrite app_length in L.
    assert (length l = 0) by lia. destruct l; [|discriminate]. rewrite app_nil_r. reflexivity.
  Qed.

  (** With cap 1 the container never has more than one error. *)
  Lemma add_cap1 ref m es : go_cap es = 1%N -> length (go_values es) <= 1 ->
    go_cap (gadd ref m es) = 1%N /\ length (go_values (gadd ref m es)) = 1.
  Proof.
    destruct es as [c v]. simpl. intros -> L. unfold gadd, go_add. simpl.
    destruct v as [|e [|? ?]]; simpl in *; auto; lia.
  Qed.

  Lemma allocate_cap1 c ref : forall ids reg heap es r es',
    go_cap es = 1%N -> length (go_values es) <= 1 ->
    go_allocate X c ref ids reg heap es = Done (r, es') -> go_cap es' = 1%N /\ length (go_values es') <= 1.
  Proof.
    induction ids as [|id ids IH]; intros reg heap es r es' C L H; simpl in H.
    - injection H as _ <-. auto.
    - destruct (c_id_pattern c); [destruct (negb _)|]; eauto.
      unfold gbind, greport in H. destruct (add_cap1 (gslash ref (go_key (c_plural c))) (GIdMismatch l id) es C L) as [C' L'].
      eapply IH in H; eauto. lia.
  Qed.

  Lemma preallocate_cap1 l ref : forall cs R heap es r es',
    go_cap es = 1%N -> length (go_values es) <= 1 ->
    go_preallocate X order cs l ref R heap es = Done (r, es') -> go_cap es' = 1%N /\ length (go_values es') <= 1.
  Proof.
    induction cs as [|c cs IH]; intros R heap es r es' C L H; simpl in H.
    - injection H as _ <-. auto.
    - unfold gbind, gret, greport in H. destruct (lookup (go_key (c_plural c)) l) as [[]|];
        try (match type of H with go_preallocate _ _ _ _ _ _ _ (gadd ?r ?m ?e) = _ =>
             destruct (add_cap1 r m e C L) as [C' L'] end; eapply IH in H; eauto; lia).
      + destruct (go_allocate _ _ _ _ _ _ es) as [[[reg heap'] es'']|] eqn:E; [|discriminate].
        destruct (allocate_cap1 _ _ _ _ _ _ _ _ C L E). eapply IH; eauto.
      + eapply IH; eauto.
  Qed.

  Theorem graph_cap1 v ref : json_wf v ->
    exists r es, go_graph_from X G order v ref es1 = Done (r, es) /\ length (go_values es) <= 1.
  Proof.
    intros W. unfold go_graph_from. simpl. destruct v as [| | | | | |l];
      try (unfold greport; rewrite add_empty; do 2 eexists; split; [reflexivity|simpl; lia]).
    destruct (preallocate_done l ref (g_classes G) [] [] es1) as ([R heap] & es & E).
    unfold gbind. rewrite E.
    destruct (preallocate_cap1 l ref (g_classes G) [] [] es1 _ _ eq_refl (Nat.le_0_l _) E) as [C L].
    destruct (go_empty es) eqn:Em.
    - apply empty_iff in Em. rewrite C in Em. subst es. rewrite andb_false_r.
      pose proof E as I. apply (preallocate_sound X order Hord 1%N l ref W) with (dn := []) in I;
        [|exact (proj2 Hfields)|apply inv_init]. simpl in I.
      assert (S : gsafe (go_registries X G order (g_classes G) l ref R heap)).
      { apply gsafe_registries; [intros c Hc; exact Hc|]. intros c m Hc Ec id Hid.
        destruct (inv_reg _ _ _ _ _ I c Hc) as [[E' _]|(m' & E' & K)]; [congruence|].
        rewrite Ec in E'. injection E' as <-. apply K in Hid. apply lookup_key_Some in Hid as [a La].
        exists a. split; [exact La|]. apply nth_error_Some.
        apply lookup_In in La. destruct (inv_obj _ _ _ _ _ I c id a Hc La) as [_ Hn]. congruence. }
      destruct S as (r & es & Es & St). rewrite Es.
      assert (Hle : length (go_values es) <= 1) by (destruct St as [->|[_ ->]]; simpl; lia).
      destruct r as [heap'|]; [|do 2 eexists; split; [reflexivity|exact Hle]].
      (* a full container returns early, hence no errors here unless there are no classes *)
      destruct St as [->|[F Le]].
      + assert (P : gsafe (go_properties X (g_props G) (gmembers_of X G order R (JObj l)) ref (zero_fields X (g_props G)))).
        { apply gsafe_properties; [apply gsafe_members|]. intros p Hp. eapply Hres; [|exact Hp].
          unfold composites. rewrite !in_app_iff. right. right. left. reflexivity. }
        destruct P as (fs & es & Ef & St). rewrite Ef. do 2 eexists. split; [reflexivity|].
        destruct St as [->|[_ ->]]; simpl; lia.
      + exfalso. clear -Es F. revert heap Es. generalize (g_classes G) as cs.
        assert (N : forall cs heap (es0 es : gerrs) h, (go_full es0 = false) ->
          go_registries X G order cs l ref R heap es0 = Done (Some h, es) -> go_full es = false).
        { induction cs as [|c cs IH]; intros heap e0 e1 h Hf H; simpl in H.
          - injection H as _ <-. exact Hf.
          - unfold gbind in H.
            match type of H with match ?m e0 with _ => _ end = _ => destruct (m e0) as [[h1 e2]|]; [|discriminate] end.
            destruct (go_full e2) eqn:F2; [discriminate|]. eapply IH; [exact F2|exact H]. }
        intros cs heap H. apply N in H; [congruence|apply empty_not_full].
    - destruct (g_classes G) as [|c cs] eqn:Ec.
      + simpl in E. injection E as <- <- <-. discriminate.
      + simpl. do 2 eexists. split; [reflexivity|exact L].
  Qed.

  (** ** Any capacity: the check of the error container is the only panic *)

  Definition gonly {A} (m : GM A) : Prop := forall es p, m es = Panic p -> p = PNonEmptyErrors.

  Lemma gonly_ret {A} (a : A) : gonly (gret a).
  Proof. intros es p H. discriminate. Qed.
  Lemma gonly_report {A} ref m (a : A) : gonly (greport ref m a).
  Proof. intros es p H. discriminate. Qed.
  Lemma gonly_bind {A B} (m : GM A) (f : A -> GM B) : gonly m -> (forall a, gonly (f a)) -> gonly (gbind m f).
  Proof.
    intros Hm Hf es p H. unfold gbind in H. destruct (m es) as [[a es']|q] eqn:E.
    - eapply Hf. exact H.
    - injection H as <-. eapply Hm. exact E.
  Qed.
  Lemma gonly_full {A} (a : A) (m : GM A) : gonly m -> gonly (fun es => if go_full es then Done (a, es) else m es).
  Proof. intros Hm es p H. destruct (go_full es); [discriminate|]. eapply Hm. exact H. Qed.
  Lemma gonly_bounds b cmp x ref : gonly (gcheck_bounds X b cmp x ref).
  Proof.
    unfold gcheck_bounds. destruct (b_min b), (b_max b); repeat destruct (negb _);
      first [apply gonly_ret|apply gonly_report].
  Qed.

  Definition gonly_parser (p : gparser X) : Prop := forall t ref, ty_resolved G t -> gonly (p t ref).

  Lemma gonly_items t ref : ty_resolved G t -> forall ps i, Forall gonly_parser ps -> gonly (go_items X ps t ref i).
  Proof.
    intros Ht. induction ps as [|p ps IH]; intros i H; simpl; [apply gonly_ret|]. inversion H; subst.
    apply gonly_bind; [auto|]. intros x. apply gonly_full. apply gonly_bind; [auto|]. intros. apply gonly_ret.
  Qed.

  Lemma gonly_entries t ref : ty_resolved G t ->
    forall (ps : list (str * gparser X)) target, Forall (fun kp => gonly_parser (snd kp)) ps ->
    gonly (go_entries X ps t ref target).
  Proof.
    intros Ht. induction ps as [|[k p] ps IH]; intros target H; simpl; [apply gonly_ret|]. inversion H; subst.
    apply gonly_bind; [auto|]. intros x. apply gonly_full. auto.
  Qed.

  Lemma gonly_properties (o : gmembers X) ref : Forall (fun kp => gonly_parser (snd kp)) o ->
    forall ps fields, (forall p, In p ps -> ty_resolved G (p_type p)) -> gonly (go_properties X ps o ref fields).
  Proof.
    intros Ho. induction ps as [|p ps IH]; intros fields H; simpl; [apply gonly_ret|].
    apply gonly_bind; [|intros; apply gonly_full; apply IH; intros q Hq; apply H; right; exact Hq].
    unfold go_property. destruct (lookup (p_json p) o) as [parse|] eqn:E.
    - apply gonly_bind; [|intros; apply gonly_ret]. apply lookup_In in E. rewrite Forall_forall in Ho.
      apply (Ho _ E). apply H. left. reflexivity.
    - destruct (p_optional p); [apply gonly_ret|apply gonly_report].
  Qed.

  Lemma gonly_composite ps v (o : gmembers X) ref fields :
    (forall p, In p ps -> ty_resolved G (p_type p)) -> Forall (fun kp => gonly_parser (snd kp)) o ->
    gonly (go_composite X ps v o ref fields).
  Proof.
    intros H Ho es p. unfold go_composite. destruct (negb (go_empty es)); [congruence|].
    destruct v; try apply gonly_report. apply gonly_properties; assumption.
  Qed.

  Lemma gonly_value R v : gonly_parser (go_value X G order R v).
  Proof.
    induction v as [| | | | |l IH|l IH] using jval_ind'; intros t ref Ht; destruct t; simpl in *;
      unfold go_boolean, go_integer, go_float, go_string, go_date_time, go_time_zone, go_duration, go_reference, go_array;
      repeat match goal with |- gonly (match ?x with _ => _ end) => destruct x eqn:? end;
      try congruence; try apply gonly_bounds; try apply gonly_ret; try apply gonly_report;
      try solve [apply gonly_bind; [apply gonly_composite; [eapply embed_resolved; eassumption|constructor]|intros; apply gonly_ret]].
    - apply gonly_bind; [|intros; apply gonly_ret]. apply gonly_items; [exact Ht|]. apply Forall_map. exact IH.
    - apply gonly_bind; [|intros; apply gonly_ret]. apply gonly_entries; [exact Ht|]. apply order_Forall; [exact Hord|].
      apply Forall_map. exact IH.
    - apply gonly_bind; [|intros; apply gonly_ret]. apply gonly_composite; [eapply embed_resolved; eassumption|].
      apply Forall_map. exact IH.
  Qed.

  Lemma gonly_members R v : Forall (fun kp => gonly_parser (snd kp)) (gmembers_of X G order R v).
  Proof.
    destruct v; simpl; try constructor. apply Forall_map. apply Forall_forall. intros [k v] _. apply gonly_value.
  Qed.

  Lemma gonly_instances c R (reg : list (str * addr)) ref : In c (g_classes G) ->
    forall l heap, (forall id, In id (keys l) -> exists a, lookup id reg = Some a /\ a < length heap) ->
    gonly (go_instances X G order c R reg ref l heap).
  Proof.
    intros Hc. induction l as [|[id v] l IH]; intros heap H; simpl; [apply gonly_ret|].
    destruct (H id (or_introl eq_refl)) as (a & L & La). rewrite L.
    destruct (nth_error heap a) as [i|] eqn:E; [|apply nth_error_None in E; lia].
    apply gonly_bind.
    - apply gonly_composite; [|apply gonly_members]. intros p Hp. eapply Hres; [|exact Hp].
      apply class_composite. exact Hc.
    - intros fields. apply gonly_full. apply IH. intros j Hj. destruct (H j (or_intror Hj)) as (b & Lb & Hb).
      exists b. split; [exact Lb|]. rewrite set_obj_length; assumption.
  Qed.

  Lemma instances_length c R (reg : list (str * addr)) ref : forall l0 heap es heap' es',
    go_instances X G order c R reg ref l0 heap es = Done (heap', es') -> length heap' = length heap.
  Proof.
    induction l0 as [|[id v] l0 IH]; intros heap es heap' es' Hh; simpl in Hh.
    - injection Hh as <- _. reflexivity.
    - destruct (lookup id reg) as [a|]; [|discriminate Hh].
      destruct (nth_error heap a) as [i|] eqn:E; [|discriminate Hh].
      unfold gbind in Hh. destruct (go_composite _ _ _ _ _ _ es) as [[fs es1]|]; [|discriminate Hh].
      assert (Hl : length (set_obj X a (GObj (o_class i) match v with JObj _ => id | _ => o_id i end fs) heap) = length heap)
        by (apply set_obj_length; apply nth_error_Some; congruence).
      destruct (go_full es1); [injection Hh as <- _; exact Hl|]. apply IH in Hh. congruence.
  Qed.

  Lemma gonly_registries l ref R : forall cs heap, incl cs (g_classes G) ->
    (forall c m, In c cs -> lookup (go_cls_key c) l = Some (JObj m) ->
       forall id, In id (keys m) -> exists a, lookup id (registry R c) = Some a /\ a < length heap) ->
    gonly (go_registries X G order cs l ref R heap).
  Proof.
    induction cs as [|c cs IH]; intros heap Inc H; simpl; [apply gonly_ret|].
    fold (registry R c).
    assert (Tail : forall heap', length heap' = length heap -> forall es p,
      (if go_full es then Done (None, es) else go_registries X G order cs l ref R heap' es) = Panic p -> p = PNonEmptyErrors).
    { intros heap' Hl es p Hp. destruct (go_full es); [discriminate|].
      eapply IH; [| |exact Hp]; [intros c' Hc'; apply Inc; right; exact Hc'|].
      rewrite Hl. intros c' m Hc'. apply H. right. exact Hc'. }
    intros es p Hp. unfold gbind in Hp.
    destruct (lookup (go_key (c_plural c)) l) as [[]|] eqn:E; cbv beta iota in Hp; try (eapply Tail; [reflexivity|exact Hp]).
    match type of Hp with match ?m with _ => _ end = _ => destruct m as [[heap' es']|q] eqn:Ei end.
    - eapply Tail; [|exact Hp]. eapply instances_length. exact Ei.
    - injection Hp as <-. eapply gonly_instances; [| |exact Ei]; [apply Inc; left; reflexivity|].
      intros id Hid. apply (H c l0 (or_introl eq_refl) E). eapply Permutation_in; [|exact Hid].
      symmetry. apply Permutation_keys, Hord.
  Qed.

  Theorem graph_only v ref cap p : json_wf v ->
    go_graph_from X G order v ref (empty_errs cap) = Panic p -> p = PNonEmptyErrors.
  Proof.
    intros W. unfold go_graph_from. simpl. destruct v as [| | | | | |l]; try (apply gonly_report).
    destruct (preallocate_done l ref (g_classes G) [] [] (empty_errs cap)) as ([R heap] & es & E).
    unfold gbind at 1. rewrite E.
    destruct (_ && _) eqn:T; [discriminate|]. intros H.
    assert (Es : es = empty_errs cap).
    { destruct (g_classes G) as [|c cs] eqn:Ec.
      - simpl in E. injection E as <- <- <-. reflexivity.
      - simpl in T. apply negb_false_iff in T. apply empty_iff in T.
        assert (K : ggrown (empty_errs cap) es) by (eapply gkeeps_preallocate; exact E).
        destruct K as [K _]. rewrite K in T. exact T. }
    subst es.
    pose proof E as I. apply (preallocate_sound X order Hord cap l ref W) with (dn := []) in I;
      [|exact (proj2 Hfields)|apply inv_init]. simpl in I.
    revert H. apply gonly_bind.
    - apply gonly_registries; [intros c Hc; exact Hc|]. intros c m Hc Ec id Hid.
      destruct (inv_reg _ _ _ _ _ I c Hc) as [[E' _]|(m' & E' & K)]; [congruence|].
      rewrite Ec in E'. injection E' as <-. apply K in Hid. apply lookup_key_Some in Hid as [a La].
      exists a. split; [exact La|]. apply nth_error_Some.
      apply lookup_In in La. destruct (inv_obj _ _ _ _ _ I c id a Hc La) as [_ Hn]. congruence.
    - intros [heap'|]; [|apply gonly_ret]. apply gonly_bind; [|intros; apply gonly_ret].
      apply gonly_properties; [apply gonly_members|]. intros q Hq. eapply Hres; [|exact Hq].
      unfold composites. rewrite !in_app_iff. right. right. left. reflexivity.
  Qed.

  (** ** Schemas without classes and embeddable structures: any capacity *)

  Definition gdone {A} (m : GM A) : Prop := forall es, exists a es', m es = Done (a, es').

  Lemma gdone_ret {A} (a : A) : gdone (gret a).
  Proof. intros es. do 2 eexists. reflexivity. Qed.
  Lemma gdone_report {A} ref m (a : A) : gdone (greport ref m a).
  Proof. intros es. do 2 eexists. reflexivity. Qed.
  Lemma gdone_bind {A B} (m : GM A) (f : A -> GM B) : gdone m -> (forall a, gdone (f a)) -> gdone (gbind m f).
  Proof. intros Hm Hf es. unfold gbind. destruct (Hm es) as (a & es' & ->). apply Hf. Qed.
  Lemma gdone_full {A} (a : A) (m : GM A) : gdone m -> gdone (fun es => if go_full es then Done (a, es) else m es).
  Proof. intros Hm es. destruct (go_full es); [do 2 eexists; reflexivity|apply Hm]. Qed.
  Lemma gdone_bounds b cmp x ref : gdone (gcheck_bounds X b cmp x ref).
  Proof.
    unfold gcheck_bounds. destruct (b_min b), (b_max b); repeat destruct (negb _);
      first [apply gdone_ret|apply gdone_report].
  Qed.

  Hypothesis Hnoc : g_classes G = [].
  Hypothesis Hnoe : g_embeds G = [].

  Definition gdone_parser (p : gparser X) : Prop := forall t ref, ty_resolved G t -> gdone (p t ref).

  Lemma gdone_items t ref : ty_resolved G t -> forall ps i, Forall gdone_parser ps -> gdone (go_items X ps t ref i).
  Proof.
    intros Ht. induction ps as [|p ps IH]; intros i H; simpl; [apply gdone_ret|]. inversion H; subst.
    apply gdone_bind; [auto|]. intros x. apply gdone_full. apply gdone_bind; [auto|]. intros. apply gdone_ret.
  Qed.

  Lemma gdone_entries t ref : ty_resolved G t ->
    forall (ps : list (str * gparser X)) target, Forall (fun kp => gdone_parser (snd kp)) ps ->
    gdone (go_entries X ps t ref target).
  Proof.
    intros Ht. induction ps as [|[k p] ps IH]; intros target H; simpl; [apply gdone_ret|]. inversion H; subst.
    apply gdone_bind; [auto|]. intros x. apply gdone_full. auto.
  Qed.

  Lemma gdone_value R v : gdone_parser (go_value X G order R v).
  Proof.
    assert (NE : forall n, find_embed G n = None) by (intros n; unfold find_embed; rewrite Hnoe; reflexivity).
    assert (NC : forall n, find_class G n = None) by (intros n; unfold find_class; rewrite Hnoc; reflexivity).
    induction v as [| | | | |l IH|l IH] using jval_ind'; intros t ref Ht;
    destruct t; simpl in *; rewrite ?NE, ?NC in *; try congruence;
      unfold go_boolean, go_integer, go_float, go_string, go_date_time, go_time_zone, go_duration, go_array;
      repeat match goal with |- gdone (match ?x with _ => _ end) => destruct x eqn:? end;
      try apply gdone_bounds; try apply gdone_ret; try apply gdone_report; try congruence.
    all: apply gdone_bind; [|intros; apply gdone_ret].
    - apply gdone_items; [exact Ht|]; apply Forall_map; exact IH.
    - apply gdone_entries; [exact Ht|]. apply order_Forall; [exact Hord|]. apply Forall_map. exact IH.
  Qed.

  Theorem graph_done v ref cap : exists r es, go_graph_from X G order v ref (empty_errs cap) = Done (r, es).
  Proof.
    unfold go_graph_from. simpl. destruct v as [| | | | | |l]; try apply gdone_report.
    rewrite Hnoc. simpl. unfold gbind at 1. unfold gret at 1.
    assert (H : gdone (go_properties X (g_props G) (map (fun kv => (fst kv, go_value X G order [] (snd kv))) l) ref (zero_fields X (g_props G)))).
    { assert (Hr : forall p, In p (g_props G) -> ty_resolved G (p_type p)).
      { intros p Hp. eapply Hres; [|exact Hp]. unfold composites. rewrite !in_app_iff. right. right. left. reflexivity. }
      generalize (zero_fields X (g_props G)). revert Hr. generalize (g_props G) as ps.
      induction ps as [|p ps IH]; intros Hr fs; simpl; [apply gdone_ret|].
      apply gdone_bind; [|intros; apply gdone_full; apply IH; intros q Hq; apply Hr; right; exact Hq].
      unfold go_property. destruct (lookup (p_json p) _) as [parse|] eqn:E.
      - apply gdone_bind; [|intros; apply gdone_ret]. rewrite (lookup_map_snd (go_value X G order [])) in E.
        destruct (lookup (p_json p) l); [|discriminate]. injection E as <-. apply gdone_value. apply Hr. left. reflexivity.
      - destruct (p_optional p); [apply gdone_ret|apply gdone_report]. }
    unfold gbind. simpl. destruct (H (empty_errs cap)) as (fs & es & ->). do 2 eexists. reflexivity.
  Qed.
End Safe.
