(** References to places of a document are unambiguous if no name contains a slash (C51). *)
From Coq Require Import String List Arith NArith ZArith Bool Lia.
From Verif Require Import Base M_Naming M_Dec M_Schema P_AutoID S_Conform S_Common S_Blame P_Common.
Import ListNotations.
Local Open Scope nat_scope.

Definition refs (parts : list str) : str := flat_map (fun k => s_ "/" ++ k) parts.

Lemma refs_inj : forall p q, Forall slash_free p -> Forall slash_free q -> refs p = refs q -> p = q.
Proof.
  assert (Cut : forall a b x y, slash_free a -> slash_free b ->
    (x = [] \/ exists x', x = 47%N :: x') -> (y = [] \/ exists y', y = 47%N :: y') ->
    a ++ x = b ++ y -> a = b /\ x = y).
  { intros a. induction a as [|c a IH]; intros [|d b] x y Ha Hb Hx Hy E; cbn in E.
    - auto.
    - subst x. destruct Hx as [Hx|[x' Hx]]; [discriminate Hx|]. injection Hx as -> _. destruct Hb. left. reflexivity.
    - subst y. destruct Hy as [Hy|[x' Hy]]; [discriminate Hy|]. injection Hy as -> _. destruct Ha. left. reflexivity.
    - injection E as -> E. destruct (IH b x y) as [-> ->]; auto.
      + intros H. apply Ha. right. exact H.
      + intros H. apply Hb. right. exact H. }
  assert (Start : forall p, refs p = [] \/ exists x, refs p = 47%N :: x).
  { intros [|k p]; [left; reflexivity|right]. eexists. reflexivity. }
  induction p as [|k p IH]; intros [|k' q] Hp Hq E; [reflexivity|discriminate E|discriminate E|].
  inversion Hp as [|? ? Hk Hp']; subst. inversion Hq as [|? ? Hk' Hq']; subst.
  unfold refs in E. cbn [flat_map] in E. fold (refs p) in E. fold (refs q) in E.
  rewrite <- !app_assoc in E. apply app_inv_head in E.
  destruct (Cut _ _ _ _ Hk Hk' (Start p) (Start q) E) as [-> E']. rewrite (IH q); auto.
Qed.

Lemma digit_slash_free n : slash_free (dec_nat n).
Proof.
  unfold slash_free, dec_nat. pose proof (dec_N_digits (N.of_nat n)) as H. rewrite forallb_forall in H.
  intros Hi. specialize (H _ Hi). discriminate H.
Qed.

Section Refs.
  Variable G : graph.
  Variable L : rules.
  Hypothesis Hnames : clear_names G L.
  Hypothesis Hinj : forall a b, r_quote L a = r_quote L b -> a = b.
  Notation key := (r_key L).

  Inductive pstep : site -> str -> site -> Prop :=
  | ps_registry l c v : In c (g_classes G) -> lookup (key c) l = Some v ->
      pstep (Whole (JObj l)) (key c) (Registry c v)
  | ps_instance c m id v : In (id, v) m ->
      pstep (Registry c (JObj m)) (r_quote L id) (Object (c_props c) v)
  | ps_property ps l p v : In p ps -> lookup (p_json p) l = Some v ->
      pstep (Object ps (JObj l)) (p_json p) (Value (p_type p) v)
  | ps_item t mn mx l i v : nth_error l i = Some v ->
      pstep (Value (TArray t mn mx) (JArr l)) (dec_nat i) (Value t v)
  | ps_entry t l k v : In (k, v) l ->
      pstep (Value (TMap t) (JObj l)) (r_quote L k) (Value t v).
  Inductive same : site -> site -> Prop :=
  | sm_own v : same (Whole v) (Object (g_props G) v)
  | sm_embed n e v : find_embed G n = Some e -> same (Value (TEmbed n) v) (Object (e_props e) v).

  Inductive walk : site -> list str -> site -> Prop :=
  | wk_here s : walk s [] s
  | wk_part s k s1 p s2 : pstep s k s1 -> walk s1 p s2 -> walk s (k :: p) s2
  | wk_same s s1 p s2 : same s s1 -> walk s1 p s2 -> walk s p s2.

  Lemma step_cases r s r' s' : step G L r s r' s' ->
    (exists k, pstep s k s' /\ r' = below_ref r k) \/ (same s s' /\ r' = r).
  Proof.
    intros H. destruct H; try (right; split; [constructor; assumption|reflexivity]);
      left; eexists; (split; [|reflexivity]); econstructor; eassumption.
  Qed.

  Definition clear (s : site) : Prop :=
    json_wf (site_value s) /\ all_keys (fun k => slash_free (r_quote L k)) (site_value s) /\
    match s with
    | Whole _ | Value _ _ => True
    | Registry c _ => In c (g_classes G)
    | Object ps _ => In ps (composites G)
    end.

  Lemma composite_class c : In c (g_classes G) -> In (c_props c) (composites G).
  Proof. intros H. unfold composites. apply in_or_app. left. apply in_map. exact H. Qed.
  Lemma composite_embed n e : find_embed G n = Some e -> In (e_props e) (composites G).
  Proof.
    intros H. apply find_some in H as [H _]. unfold composites. apply in_or_app. right. apply in_or_app. left.
    apply in_map. exact H.
  Qed.
  Lemma composite_graph : In (g_props G) (composites G).
  Proof. unfold composites. rewrite !in_app_iff. right. right. left. reflexivity. Qed.

  Lemma wf_member l k v : json_wf (JObj l) -> In (k, v) l -> json_wf v.
  Proof. intros H Hi. inversion H; subst. eauto. Qed.
  Lemma keys_member P l k v : all_keys P (JObj l) -> In (k, v) l -> P k /\ all_keys P v.
  Proof. intros H Hi. inversion H; subst. eauto. Qed.

  Lemma pstep_clear s k s' : clear s -> pstep s k s' -> clear s' /\ slash_free k.
  Proof.
    intros (W & K & C) H. destruct Hnames as (N1 & N2 & N3). destruct H; cbn [site_value] in *.
    - apply lookup_In in H0. split; [|apply N3; assumption]. split; [eapply wf_member; eassumption|].
      split; [eapply keys_member; eassumption|assumption].
    - destruct (keys_member _ _ _ _ K H) as [Sf K']. split; [|exact Sf].
      split; [eapply wf_member; eassumption|]. split; [exact K'|]. apply composite_class. exact C.
    - destruct (N1 ps C) as [_ Sf]. split; [|apply Sf; assumption]. apply lookup_In in H0.
      split; [eapply wf_member; eassumption|]. split; [eapply keys_member; eassumption|exact I].
    - split; [|apply digit_slash_free]. apply nth_error_In in H.
      split; [inversion W; subst; auto|]. split; [inversion K; subst; auto|exact I].
    - destruct (keys_member _ _ _ _ K H) as [Sf K']. split; [|exact Sf].
      split; [eapply wf_member; eassumption|]. split; [exact K'|exact I].
  Qed.

  Lemma same_clear s s' : clear s -> same s s' -> clear s'.
  Proof.
    intros (W & K & C) H. destruct H; (split; [exact W|]); (split; [exact K|]).
    - apply composite_graph.
    - eapply composite_embed. exact H.
  Qed.

  Lemma within_walk r s r' s' : clear s -> within G L r s r' s' ->
    exists p, walk s p s' /\ r' = r ++ refs p /\ Forall slash_free p.
  Proof.
    intros C H. induction H as [r s|r s r1 s1 r2 s2 H _ IH].
    - exists []. rewrite app_nil_r. repeat constructor.
    - apply step_cases in H as [(k & H & ->)|(H & ->)].
      + destruct (pstep_clear _ _ _ C H) as [C1 Sf]. destruct (IH C1) as (p & Wk & -> & F).
        exists (k :: p). split; [econstructor; eassumption|]. split; [|constructor; assumption].
        unfold below_ref, refs. cbn [flat_map]. rewrite <- !app_assoc. reflexivity.
      + destruct (IH (same_clear _ _ C H)) as (p & Wk & -> & F).
        exists p. split; [eapply wk_same; eassumption|]. split; [reflexivity|exact F].
  Qed.

  Lemma NoDup_map_eq {A B} (f : A -> B) l a b : NoDup (map f l) -> In a l -> In b l -> f a = f b -> a = b.
  Proof.
    induction l as [|c l IH]; intros N Ha Hb E; [destruct Ha|]. cbn in N. inversion N as [|? ? N1 N2]; subst.
    destruct Ha as [<-|Ha], Hb as [<-|Hb]; [reflexivity| | |auto].
    - exfalso. apply N1. rewrite E. apply in_map. exact Hb.
    - exfalso. apply N1. rewrite <- E. apply in_map. exact Ha.
  Qed.

  Lemma pstep_det s k s1 s2 : clear s -> pstep s k s1 -> pstep s k s2 -> s1 = s2.
  Proof.
    intros (W & K & C) H1 H2. destruct Hnames as (N1 & N2 & N3).
    assert (Mem : forall m id id' v v', json_wf (JObj m) -> In (id, v) m -> In (id', v') m ->
      r_quote L id = r_quote L id' -> v = v').
    { intros m id id' v v' Wm A B E. apply Hinj in E. subst id'. inversion Wm; subst.
      apply In_lookup in A; [|assumption]. apply In_lookup in B; [|assumption]. congruence. }
    destruct H1; inversion H2; subst; cbn [site_value] in *.
    - assert (c0 = c).
      { apply (NoDup_map_eq key (g_classes G)); auto. apply NoDup_app_parts in N2. apply N2. }
      subst c0. congruence.
    - rewrite (Mem m id id0 v v0 W H); auto.
    - assert (p0 = p).
      { apply (NoDup_map_eq p_json ps); auto. apply N1. exact C. }
      subst p0. congruence.
    - match goal with E : dec_nat _ = dec_nat _ |- _ => apply dec_nat_inj in E end. subst. congruence.
    - rewrite (Mem l k k0 v v0 W H); auto.
  Qed.

  Lemma same_det s s1 s2 : same s s1 -> same s s2 -> s1 = s2.
  Proof. intros H1 H2. destruct H1; inversion H2; subst; [reflexivity|]. congruence. Qed.

  (** A part leads either to a registry or to a property. *)
  Lemma same_part s sa k s1 s2 : clear s -> same s sa -> pstep s k s1 -> pstep sa k s2 -> False.
  Proof.
    intros C Hs H1 H2. destruct Hnames as (_ & N2 & _). destruct Hs; inversion H1; subst.
    inversion H2; subst.
    assert (D : forall x, In x (map p_json (g_props G)) -> In x (map key (g_classes G)) -> False).
    { clear -N2. revert N2. generalize (map p_json (g_props G)), (map key (g_classes G)). intros a b N x Ha Hb.
      induction a as [|y a IH]; [destruct Ha|]. cbn in N. inversion N as [|? ? N1 N2]; subst.
      destruct Ha as [->|Ha]; [|auto]. apply N1. apply in_or_app. auto. }
    eapply D; [apply in_map; eassumption|].
    match goal with E : p_json _ = key _ |- _ => rewrite E end. apply in_map. assumption.
  Qed.

  Lemma same_twice s sa sb : same s sa -> same sa sb -> False.
  Proof. intros H1 H2. destruct H1; inversion H2. Qed.

  Definition agree (s1 s2 : site) : Prop :=
    site_value s1 = site_value s2 /\
    forall t1 v1 t2 v2, s1 = Value t1 v1 -> s2 = Value t2 v2 -> t1 = t2.

  Lemma agree_sym s1 s2 : agree s1 s2 -> agree s2 s1.
  Proof. intros [H1 H2]. split; [auto|]. intros. symmetry. eauto. Qed.

  Lemma walk_nil s s2 : walk s [] s2 -> agree s s2.
  Proof.
    intros H. inversion H as [|? ? ? ? ? A B|? s1 ? ? Sm W]; subst.
    - split; [reflexivity|]. intros t1 v1 t2 v2 -> [= -> ->]. reflexivity.
    - inversion W as [|? ? ? ? ? A B|? sb ? ? Sm' W']; subst; [|destruct (same_twice _ _ _ Sm Sm')].
      destruct Sm; (split; [reflexivity|]); intros; discriminate.
  Qed.

  Lemma walk_same_part s sa k p s2 : same s sa -> walk sa (k :: p) s2 ->
    exists s1, pstep sa k s1 /\ walk s1 p s2.
  Proof.
    intros Sm W. inversion W as [|? ? s1 ? ? A B|? sb ? ? Sm' W']; subst; [eauto|].
    destruct (same_twice _ _ _ Sm Sm').
  Qed.

  Lemma walk_det s p s1 : walk s p s1 -> clear s -> forall s2, walk s p s2 -> agree s1 s2.
  Proof.
    intros H. induction H as [s|s k sa p s1 A W IH|s sa p s1 Sm W IH]; intros C s2 W2.
    - apply walk_nil. exact W2.
    - inversion W2 as [|? ? sb ? ? A' W'|? sb ? ? Sm' W']; subst.
      + rewrite (pstep_det _ _ _ _ C A' A) in W'. apply IH; [apply (pstep_clear _ _ _ C A)|exact W'].
      + destruct (walk_same_part _ _ _ _ _ Sm' W') as (sc & A' & _). destruct (same_part _ _ _ _ _ C Sm' A A').
    - inversion W2 as [|? k sb p' ? A' W'|? sb ? ? Sm' W']; subst.
      + apply agree_sym. apply walk_nil. eapply wk_same; eassumption.
      + destruct (walk_same_part _ _ _ _ _ Sm W) as (sc & A & _). destruct (same_part _ _ _ _ _ C Sm A' A).
      + rewrite (same_det _ _ _ Sm' Sm) in W'. apply IH; [eapply same_clear; eassumption|exact W'].
  Qed.

  Lemma references_unambiguous w ref r s1 s2 : json_wf w ->
    all_keys (fun k => slash_free (r_quote L k)) w ->
    within G L ref (Whole w) r s1 -> within G L ref (Whole w) r s2 -> agree s1 s2.
  Proof.
    intros W K H1 H2. assert (C : clear (Whole w)) by (split; [exact W|split; [exact K|exact I]]).
    apply within_walk in H1 as (p1 & W1 & E1 & F1); [|exact C].
    apply within_walk in H2 as (p2 & W2 & E2 & F2); [|exact C].
    rewrite E1 in E2. apply app_inv_head in E2. apply refs_inj in E2; [|assumption|assumption]. subst p2.
    eapply walk_det; eassumption.
  Qed.
End Refs.
