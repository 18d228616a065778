From Verif Require Import Base M_TypeGraph S_TypeGraph.
From Coq Require Import List Arith NArith Bool Lia Permutation Sorted.
Import ListNotations.

Lemma mem_addr_In a v : mem_addr a v = true <-> In a v.
Proof.
  unfold mem_addr. rewrite existsb_exists. split.
  - intros [x [H E]]. apply Nat.eqb_eq in E. subst. exact H.
  - intros H. exists a. split; [exact H|apply Nat.eqb_refl].
Qed.
Lemma mem_addr_not a v : mem_addr a v = false <-> ~ In a v.
Proof. rewrite <- mem_addr_In. destruct (mem_addr a v); split; congruence. Qed.

Lemma In_add a b v : In b (add_addr a v) <-> b = a \/ In b v.
Proof.
  unfold add_addr. destruct (mem_addr a v) eqn:E; simpl.
  - apply mem_addr_In in E. intuition congruence.
  - intuition congruence.
Qed.

Lemma edge_children h a b : edge h a b <-> exists o, nth_error h a = Some o /\ In b (children_of o).
Proof.
  split.
  - intros H. destruct H; eexists; (split; [eassumption|]); simpl; auto;
      rewrite ?in_app_iff; auto.
  - intros [o [H HI]]. destruct o; simpl in HI.
    + destruct HI.
    + destruct HI as [<-|[]]. eapply e_array; eassumption.
    + destruct HI as [<-|[]]. eapply e_map; eassumption.
    + eapply e_embed; eassumption.
    + eapply e_class; eassumption.
    + rewrite !in_app_iff in HI. destruct HI as [HI|[HI|HI]];
        [eapply e_graph_class|eapply e_graph_embed|eapply e_graph_prop]; eassumption.
Qed.

Lemma reach_trans h a b c : reach h a b -> reach h b c -> reach h a c.
Proof. intros H1 H2. induction H1; [exact H2|]. econstructor; eauto. Qed.

Lemma reach_closed h (E : list addr) : (forall n m, In n E -> edge h n m -> In m E) ->
  forall a b, reach h a b -> In a E -> In b E.
Proof. intros HC a b H. induction H; [auto|]. intros Ha. apply IHreach. eapply HC; eassumption. Qed.

(** ** Counting unvisited addresses *)

Definition unvisited (n : nat) (v : list addr) : nat :=
  length (filter (fun a => negb (mem_addr a v)) (seq 0 n)).

Lemma filter_length_mono {A} (f g : A -> bool) l :
  (forall x, In x l -> f x = true -> g x = true) -> length (filter f l) <= length (filter g l).
Proof.
  induction l as [|x l IH]; simpl; intros H; [lia|].
  specialize (IH (fun y Hy => H y (or_intror Hy))).
  destruct (f x) eqn:Ef.
  - rewrite (H x (or_introl eq_refl) Ef). simpl. lia.
  - destruct (g x); simpl; lia.
Qed.

Lemma filter_length_lt {A} (f g : A -> bool) l x :
  (forall y, In y l -> f y = true -> g y = true) -> In x l -> f x = false -> g x = true ->
  length (filter f l) < length (filter g l).
Proof.
  induction l as [|y l IH]; simpl; intros H HI Hf Hg; [destruct HI|].
  destruct HI as [->|HI].
  - rewrite Hf, Hg. simpl.
    pose proof (filter_length_mono f g l (fun z Hz => H z (or_intror Hz))). lia.
  - specialize (IH (fun z Hz => H z (or_intror Hz)) HI Hf Hg).
    destruct (f y) eqn:Ef.
    + rewrite (H y (or_introl eq_refl) Ef). simpl. lia.
    + destruct (g y); simpl; lia.
Qed.

Lemma unvisited_mono n v w : incl v w -> unvisited n w <= unvisited n v.
Proof.
  intros H. apply filter_length_mono. intros x _ Hx. apply negb_true_iff in Hx.
  apply negb_true_iff. apply mem_addr_not in Hx. apply mem_addr_not. auto.
Qed.

Lemma unvisited_lt n v w a : incl v w -> a < n -> ~ In a v -> In a w ->
  unvisited n w < unvisited n v.
Proof.
  intros H Ha Hv Hw. apply (filter_length_lt _ _ _ a).
  - intros x _ Hx. apply negb_true_iff in Hx. apply negb_true_iff.
    apply mem_addr_not in Hx. apply mem_addr_not. auto.
  - apply in_seq. lia.
  - apply negb_false_iff, mem_addr_In, Hw.
  - apply negb_true_iff, mem_addr_not, Hv.
Qed.

Lemma unvisited_le n v : unvisited n v <= n.
Proof.
  unfold unvisited. rewrite <- (seq_length n 0) at 2. generalize (seq 0 n) as l.
  induction l as [|x l IH]; simpl; [lia|]. destruct (negb _); simpl; lia.
Qed.

(** ** needs_type *)

Section Needs.
  Variable h : heap.
  Variable q : kind.
  Hypothesis WF : heap_wf h.

  Definition found (b : addr) : Prop := exists o, nth_error h b = Some o /\ isinstance o q = true.
  Definition quiet (b : addr) (E : list addr) : Prop :=
    ~ found b /\ forall m, edge h b m -> In m E.

  Definition measure (a : addr) (v : list addr) : nat :=
    2 * unvisited (length h) v + (if mem_addr a v then 1 else 0).

  Definition outcome (a : addr) (targets : list addr) (v : list addr)
             (r : option (bool * list addr)) : Prop :=
    exists b v', r = Some (b, v') /\ incl v v' /\
      (b = true -> exists x, In x targets /\ exists y, reach h x y /\ found y) /\
      (b = false -> forall G, incl v G -> In a G ->
         exists E, incl G E /\ incl targets E /\ incl v' E /\
                   forall n, In n E -> In n G \/ quiet n E).

  Lemma needs_loop_ok rec a cs : a < length h ->
    forall v,
    (forall c w, In c cs -> incl v w -> In a w -> ~ (In c v /\ In c w) -> True) ->
    (forall c w, In c cs -> incl v w -> ~ In c w ->
       exists b v', rec c (add_addr a w) = Some (b, v') /\ incl (add_addr a w) v' /\
         (b = true -> exists y, reach h c y /\ found y) /\
         (b = false -> forall G, incl (add_addr a w) G ->
            exists E, incl G E /\ In c E /\ incl v' E /\
                      forall n, In n E -> In n G \/ quiet n E)) ->
    outcome a cs v (needs_loop rec a cs v).
  Proof.
    intros Ha. induction cs as [|c cs IH]; intros v _ Hrec; simpl.
    - exists false, v. split; [reflexivity|]. split; [apply incl_refl|].
      split; [discriminate|]. intros _ G HG HaG. exists G. split; [apply incl_refl|].
      split; [intros ? []|]. split; [exact HG|]. auto.
    - destruct (mem_addr c v) eqn:Ec.
      + apply mem_addr_In in Ec.
        destruct (IH v) as (b & v' & E1 & Hi & HT & HF); [auto| |].
        { intros d w Hd. apply Hrec. right. exact Hd. }
        exists b, v'. split; [exact E1|]. split; [exact Hi|]. split.
        * intros Hb. destruct (HT Hb) as [x [Hx Hy]]. exists x. split; [right; exact Hx|exact Hy].
        * intros Hb G HG HaG. destruct (HF Hb G HG HaG) as (E & H1 & H2 & H3 & H4).
          exists E. split; [exact H1|]. split; [|split; assumption].
          intros d [<-|Hd]; [apply H1, HG, Ec|apply H2, Hd].
      + apply mem_addr_not in Ec.
        destruct (Hrec c v (or_introl eq_refl) (incl_refl v) Ec) as (b & v1 & E1 & Hi & HT & HF).
        rewrite E1. destruct b.
        * exists true, v1. split; [reflexivity|]. split.
          { intros x Hx. apply Hi, In_add. auto. }
          split; [|discriminate]. intros _. exists c. split; [left; reflexivity|auto].
        * assert (Hv1 : incl v v1) by (intros x Hx; apply Hi, In_add; auto).
          destruct (IH v1) as (b2 & v2 & E2 & Hi2 & HT2 & HF2); [auto| |].
          { intros d w Hd Hw. apply Hrec; [right; exact Hd|]. eapply incl_tran; eassumption. }
          exists b2, v2. split; [exact E2|]. split; [eapply incl_tran; eassumption|]. split.
          -- intros Hb. destruct (HT2 Hb) as [x [Hx Hy]]. exists x. split; [right; exact Hx|exact Hy].
          -- intros Hb G HG HaG.
             destruct (HF eq_refl G) as (E & K1 & K2 & K3 & K4).
             { intros x Hx. apply In_add in Hx as [->|Hx]; auto. }
             destruct (HF2 Hb E K3 (K1 _ HaG)) as (E' & L1 & L2 & L3 & L4).
             exists E'. split; [eapply incl_tran; eassumption|]. split.
             { intros d [<-|Hd]; [apply L1, K2|apply L2, Hd]. }
             split; [exact L3|]. intros n Hn. destruct (L4 n Hn) as [Hn'|Hn'].
             ++ destruct (K4 n Hn') as [Hg|[Q1 Q2]]; [auto|]. right. split; [exact Q1|].
                intros m Hm. apply L1, Q2, Hm.
             ++ auto.
  Qed.

  Lemma needs_go_ok fuel : forall a v, a < length h -> measure a v < fuel ->
    exists b v', needs_type_go h q fuel a v = Some (b, v') /\ incl v v' /\
      (b = true -> exists y, reach h a y /\ found y) /\
      (b = false -> forall G, incl v G ->
         exists E, incl G E /\ In a E /\ incl v' E /\
                   forall n, In n E -> In n G \/ quiet n E).
  Proof.
    induction fuel as [|fuel IH]; intros a v Ha Hm; [lia|].
    simpl. destruct (nth_error h a) as [o|] eqn:Eo.
    2: { apply nth_error_None in Eo. lia. }
    destruct (isinstance o q) eqn:Ei.
    - exists true, v. split; [reflexivity|]. split; [apply incl_refl|].
      split; [|discriminate]. intros _. exists a. split; [constructor|]. exists o. auto.
    - destruct (needs_loop_ok (needs_type_go h q fuel) a (children_of o) Ha v) as
        (b & v' & E1 & Hi & HT & HF); [auto| |].
      { intros c w Hc Hw Hcw. apply IH.
        - apply (WF a). apply edge_children. eauto.
        - unfold measure in *.
          assert (U : unvisited (length h) w <= unvisited (length h) v) by (apply unvisited_mono, Hw).
          destruct (mem_addr a v) eqn:Eav.
          + apply mem_addr_In in Eav.
            assert (add_addr a w = w) as ->.
            { unfold add_addr. rewrite (proj2 (mem_addr_In a w)); [reflexivity|]. apply Hw, Eav. }
            rewrite (proj2 (mem_addr_not c w) Hcw). lia.
          + apply mem_addr_not in Eav.
            assert (unvisited (length h) (add_addr a w) < unvisited (length h) v).
            { apply (unvisited_lt _ _ _ a); auto.
              - intros x Hx. apply In_add. auto.
              - apply In_add. auto. }
            destruct (mem_addr c (add_addr a w)); lia. }
      exists b, v'. split; [exact E1|]. split; [exact Hi|]. split.
      + intros Hb. destruct (HT Hb) as [x [Hx [y [Hy1 Hy2]]]]. exists y. split; [|exact Hy2].
        econstructor; [|exact Hy1]. apply edge_children. eauto.
      + intros Hb G HG. destruct (HF Hb (a :: G)) as (E & K1 & K2 & K3 & K4).
        * intros x Hx. right. apply HG, Hx.
        * left. reflexivity.
        * exists E. split; [intros x Hx; apply K1; right; exact Hx|].
          split; [apply K1; left; reflexivity|]. split; [exact K3|].
          intros n Hn. destruct (K4 n Hn) as [[<-|Hg]|Hq]; auto.
          right. split.
          -- intros [o' [Eo' Hi']]. congruence.
          -- intros m Hm'. apply K2. apply edge_children in Hm' as [o' [Eo' Hm']].
             rewrite Eo in Eo'. injection Eo' as <-. exact Hm'.
  Qed.

  Lemma needs_type_correct a fuel : a < length h -> 2 * length h + 2 <= fuel ->
    exists b, needs_type h q fuel a = Some b /\
      (b = true <-> exists y, reach h a y /\ found y).
  Proof.
    intros Ha Hf.
    destruct (needs_go_ok fuel a [] Ha) as (b & v' & E1 & _ & HT & HF).
    { unfold measure. pose proof (unvisited_le (length h) []). simpl. lia. }
    exists b. unfold needs_type. rewrite E1. split; [reflexivity|]. split; [exact HT|].
    intros [y [Hy Hf']]. destruct b; [reflexivity|]. exfalso.
    destruct (HF eq_refl []) as (E & _ & K1 & _ & K2); [intros ? []|].
    assert (HC : forall n m, In n E -> edge h n m -> In m E).
    { intros n m Hn Hm. destruct (K2 n Hn) as [[]|[_ Hq]]. apply Hq, Hm. }
    pose proof (reach_closed h E HC a y Hy K1) as Hy'.
    destruct (K2 y Hy') as [[]|[Hn _]]. contradiction.
  Qed.
End Needs.

(** ** references *)

Lemma In_union x a b : In x (union a b) <-> In x a \/ In x b.
Proof.
  unfold union. rewrite in_app_iff, filter_In. split.
  - tauto.
  - intros [H|H]; [auto|]. destruct (mem_addr x a) eqn:E.
    + left. apply mem_addr_In, E.
    + right. auto.
Qed.

Lemma NoDup_filter {A} (f : A -> bool) l : NoDup l -> NoDup (filter f l).
Proof.
  induction l as [|x l IH]; simpl; intros H; [constructor|].
  inversion H; subst. destruct (f x); [|auto]. constructor; [|auto].
  rewrite filter_In. tauto.
Qed.

Lemma NoDup_app_intro {A} (a b : list A) :
  NoDup a -> NoDup b -> (forall x, In x a -> In x b -> False) -> NoDup (a ++ b).
Proof.
  induction a as [|x a IH]; simpl; intros Ha Hb H; [exact Hb|].
  inversion Ha; subst. constructor.
  - rewrite in_app_iff. intros [K|K]; [auto|]. apply (H x); auto.
  - apply IH; auto. intros y Hy. apply H. auto.
Qed.

Lemma NoDup_union a b : NoDup a -> NoDup b -> NoDup (union a b).
Proof.
  intros Ha Hb. apply NoDup_app_intro; [exact Ha|apply NoDup_filter, Hb|].
  intros x Hx Hf. apply filter_In in Hf as [_ Hf]. apply negb_true_iff, mem_addr_not in Hf. auto.
Qed.

Section Refs.
  Variable h : heap.
  Hypothesis WF : heap_wf h.
  Hypothesis ROOT : graph_is_root h.

  Definition klass (b : addr) : Prop := exists n ps, nth_error h b = Some (OClass n ps).

  Lemma is_class_klass a o : nth_error h a = Some o -> (is_class o = true <-> klass a).
  Proof.
    intros E. unfold klass. destruct o; simpl; split; intros H; try discriminate; eauto;
      destruct H as (m & ps & H); congruence.
  Qed.

  Definition closed_in (n : addr) (V : list addr) : Prop :=
    forall o, nth_error h n = Some o -> forall m, In m (refs_children o) -> In m V.

  Lemma refs_child_edge a o b : nth_error h a = Some o -> In b (refs_children o) -> edge h a b.
  Proof.
    intros E H. apply edge_children. exists o. split; [exact E|].
    destruct o; simpl in *; auto. destruct H.
  Qed.

  Lemma references_unfold fuel a v : references_go h fuel a v =
    (if mem_addr a v then Some ([], v)
     else match fuel with
          | O => None
          | S fuel' =>
              match nth_error h a with
              | None => None
              | Some o => refs_loop (references_go h fuel') (refs_children o)
                            (if is_class o then [a] else []) (a :: v)
              end
          end).
  Proof. destruct fuel; reflexivity. Qed.

  Definition ref_ok (starts : addr -> Prop) (v r0 r v' : list addr) : Prop :=
    incl v v' /\ incl r0 r /\ (NoDup r0 -> NoDup r) /\
    (forall n, In n r -> In n r0 \/ (klass n /\ exists s, starts s /\ reach h s n)) /\
    (forall n, In n v' -> In n v \/ (closed_in n v' /\ (klass n -> In n r))).

  Lemma refs_loop_ok rec cs : forall r0 v,
    (forall c w, In c cs -> incl v w ->
       exists r v', rec c w = Some (r, v') /\ In c v' /\ ref_ok (eq c) w [] r v') ->
    exists r v', refs_loop rec cs r0 v = Some (r, v') /\ incl cs v' /\
                 ref_ok (fun s => In s cs) v r0 r v'.
  Proof.
    induction cs as [|c cs IH]; intros r0 v Hrec; simpl.
    - exists r0, v. split; [reflexivity|]. split; [intros ? []|].
      repeat split; auto using incl_refl.
    - destruct (Hrec c v (or_introl eq_refl) (incl_refl v)) as
        (r1 & v1 & E1 & Hc & A1 & A2 & A3 & A4 & A5).
      rewrite E1.
      destruct (IH (union r0 r1) v1) as (r & v' & E2 & Hcs & B1 & B2 & B3 & B4 & B5).
      { intros d w Hd Hw. apply Hrec; [right; exact Hd|]. eapply incl_tran; eassumption. }
      exists r, v'. split; [exact E2|]. split.
      { intros d [<-|Hd]; auto. }
      split; [eapply incl_tran; eassumption|].
      split; [intros x Hx; apply B2, In_union; auto|].
      split; [intros HN; apply B3, NoDup_union; [exact HN|apply A3; constructor]|].
      split.
      + intros n Hn. destruct (B4 n Hn) as [Hu|[Hk [s [Hs Hr]]]].
        * apply In_union in Hu as [Hu|Hu]; [auto|]. right.
          destruct (A4 n Hu) as [[]|[Hk [s [<- Hr]]]]. split; [exact Hk|]. exists c. simpl. auto.
        * right. split; [exact Hk|]. exists s. simpl. auto.
      + intros n Hn. destruct (B5 n Hn) as [Hv|Hv]; [|auto].
        destruct (A5 n Hv) as [Hw|[Hcl Hk]]; [auto|]. right. split.
        * intros o Eo m Hm. apply B1. eapply Hcl; eassumption.
        * intros Kn. apply B2, In_union. auto.
  Qed.

  Lemma references_go_ok fuel : forall a v, a < length h ->
    (In a v \/ unvisited (length h) v < fuel) ->
    exists r v', references_go h fuel a v = Some (r, v') /\ In a v' /\ ref_ok (eq a) v [] r v'.
  Proof.
    induction fuel as [|fuel IH]; intros a v Ha Hm; rewrite references_unfold;
      destruct (mem_addr a v) eqn:Ea.
    - apply mem_addr_In in Ea. exists [], v. repeat split; auto using incl_refl.
    - apply mem_addr_not in Ea. destruct Hm as [Hm|Hm]; [contradiction|lia].
    - apply mem_addr_In in Ea. exists [], v. repeat split; auto using incl_refl.
    - apply mem_addr_not in Ea. destruct Hm as [Hm|Hm]; [contradiction|].
      destruct (nth_error h a) as [o|] eqn:Eo.
      2: { apply nth_error_None in Eo. lia. }
      assert (U : unvisited (length h) (a :: v) < unvisited (length h) v).
      { apply (unvisited_lt _ _ _ a); auto; [intros x Hx; right; exact Hx|left; reflexivity]. }
      destruct (refs_loop_ok (references_go h fuel) (refs_children o)
                  (if is_class o then [a] else []) (a :: v)) as (r & v' & E & Hcs & B1 & B2 & B3 & B4 & B5).
      { intros c w Hc Hw. apply IH.
        - apply (WF a), (refs_child_edge a o); assumption.
        - right. pose proof (unvisited_mono (length h) _ _ Hw). lia. }
      exists r, v'. split; [exact E|]. split; [apply B1; left; reflexivity|].
      split; [intros x Hx; apply B1; right; exact Hx|].
      split; [intros ? []|].
      split; [intros _; apply B3; destruct (is_class o); repeat constructor; intros []|].
      split.
      + intros n Hn. right. destruct (B4 n Hn) as [H0|[Hk [s [Hs Hr]]]].
        * destruct (is_class o) eqn:Ec; [|destruct H0]. destruct H0 as [<-|[]].
          split; [apply (is_class_klass _ _ Eo), Ec|]. exists a. split; [reflexivity|constructor].
        * split; [exact Hk|]. exists a. split; [reflexivity|].
          econstructor; [|exact Hr]. apply (refs_child_edge a o); assumption.
      + intros n Hn. destruct (B5 n Hn) as [[<-|Hv]|Hq]; auto.
        right. split.
        * intros o' Eo' m Hm'. rewrite Eo in Eo'. injection Eo' as <-. apply Hcs, Hm'.
        * intros Hk. apply B2. rewrite (proj2 (is_class_klass _ _ Eo) Hk). left. reflexivity.
  Qed.

  (** From a non-graph node, [edge] and [refs_children] agree. *)
  Lemma edge_refs a b : (forall cs es ps, nth_error h a <> Some (OGraph cs es ps)) ->
    edge h a b -> exists o, nth_error h a = Some o /\ In b (refs_children o).
  Proof.
    intros NG H. apply edge_children in H as [o [Eo Hb]]. exists o. split; [exact Eo|].
    destruct o; simpl in *; auto. exfalso. eapply NG; eassumption.
  Qed.

  Lemma references_top fuel a : a < length h -> length h < fuel ->
    (forall cs es ps, nth_error h a <> Some (OGraph cs es ps)) ->
    exists r v', references_go h fuel a [] = Some (r, v') /\ NoDup r /\
      forall n, In n r <-> klass n /\ reach h a n.
  Proof.
    intros Ha Hf NG.
    destruct (references_go_ok fuel a [] Ha) as (r & v' & E & Hin & A1 & A2 & A3 & A4 & A5).
    { right. eapply Nat.le_lt_trans; [apply unvisited_le|exact Hf]. }
    exists r, v'. split; [exact E|]. split; [apply A3; constructor|].
    intros n. split.
    - intros Hn. destruct (A4 n Hn) as [[]|[Hk [s [<- Hr]]]]. auto.
    - intros [Hk Hr].
      assert (Hv : In n v').
      { clear Hk E A4 Ha. revert NG Hin. induction Hr as [x|x y z He Hr IH]; intros NG Hx; [exact Hx|].
        apply IH.
        - intros. apply (ROOT _ _ He).
        - destruct (A5 x Hx) as [[]|[Hcl _]].
          destruct (edge_refs _ _ NG He) as [o [Eo Hy]]. eapply Hcl; eassumption. }
      destruct (A5 n Hv) as [[]|[_ Hc]]. auto.
  Qed.

  Lemma references_props_ok fuel ps : length h < fuel ->
    (forall p, In p ps -> p < length h /\ forall cs es qs, nth_error h p <> Some (OGraph cs es qs)) ->
    forall r0, NoDup r0 ->
    exists r, references_props h fuel ps r0 = Some r /\ NoDup r /\
      forall n, In n r <-> In n r0 \/ (klass n /\ exists p, In p ps /\ reach h p n).
  Proof.
    intros Hf. induction ps as [|p ps IH]; intros Hps r0 HN; simpl.
    - exists r0. split; [reflexivity|]. split; [exact HN|]. intros n. split; [auto|].
      intros [H|[_ [p [[] _]]]]. exact H.
    - destruct (Hps p (or_introl eq_refl)) as [Hp NG].
      destruct (references_top fuel p Hp Hf NG) as (r1 & v1 & E1 & N1 & H1). rewrite E1.
      destruct (IH (fun x Hx => Hps x (or_intror Hx)) (union r0 r1) (NoDup_union _ _ HN N1))
        as (r & E & Nr & Hr).
      exists r. split; [exact E|]. split; [exact Nr|]. intros n. rewrite Hr, In_union, H1. split.
      + intros [[H|[Hk H]]|[Hk [x [Hx H]]]]; [auto| |]; right; split; auto;
          [exists p|exists x]; simpl; auto.
      + intros [H|[Hk [x [[<-|Hx] H]]]]; [auto|auto|]. right. split; [exact Hk|]. eauto.
  Qed.

  (** Sorting *)
  Lemma insert_perm a l : Permutation (insert_by_name h a l) (a :: l).
  Proof.
    induction l as [|b l IH]; simpl; [apply Permutation_refl|].
    destruct (str_leb _ _); [apply Permutation_refl|].
    etransitivity; [apply perm_skip, IH|apply perm_swap].
  Qed.
  Lemma sort_perm l : Permutation (sort_by_name h l) l.
  Proof.
    induction l as [|a l IH]; simpl; [constructor|].
    etransitivity; [apply insert_perm|apply perm_skip, IH].
  Qed.

  Lemma str_leb_lt a b : str_leb a b = true <-> str_lt a b \/ a = b.
  Proof.
    revert b; induction a as [|x a IH]; intros b; simpl.
    - split; [|reflexivity]. intros _. destruct b; [right; reflexivity|left; constructor].
    - destruct b as [|y b].
      + split; [discriminate|]. intros [H|H]; [inversion H|discriminate].
      + destruct (N.ltb_spec x y) as [L|L].
        * split; [|reflexivity]. intros _. left. apply lt_head. exact L.
        * destruct (N.eqb x y) eqn:E.
          -- apply N.eqb_eq in E. subst. rewrite IH. split.
             ++ intros [H| ->]; [left; apply lt_tail, H|right; reflexivity].
             ++ intros [H|H]; [|injection H as ->; auto].
                inversion H; subst; [lia|auto].
          -- apply N.eqb_neq in E. split; [discriminate|].
             intros [H|H]; [|congruence]. inversion H; subst; [lia|congruence].
  Qed.

  Lemma str_lt_trans a b c : str_lt a b -> str_lt b c -> str_lt a c.
  Proof.
    intros H. revert c. induction H as [x s|x y s t L|x s t H IH]; intros c Hc.
    - inversion Hc; subst; constructor.
    - inversion Hc as [|? ? ? ? L2|]; subst; apply lt_head; [eapply N.lt_trans; eassumption|assumption].
    - inversion Hc; subst; [apply lt_head; assumption|apply lt_tail, IH; assumption].
  Qed.

  Lemma str_total a b : str_leb a b = false -> str_lt b a.
  Proof.
    revert b; induction a as [|x a IH]; intros b; simpl; [discriminate|].
    destruct b as [|y b]; [intros _; constructor|].
    destruct (N.ltb_spec x y) as [L|L]; [discriminate|].
    destruct (N.eqb x y) eqn:E.
    - apply N.eqb_eq in E. subst. intros H. apply lt_tail, IH, H.
    - apply N.eqb_neq in E. intros _. apply lt_head. lia.
  Qed.

  Definition name_lt (a b : addr) : Prop := str_lt (class_name h a) (class_name h b).

  Lemma insert_sorted a l :
    (forall x, In x l -> class_name h x <> class_name h a) ->
    StronglySorted name_lt l -> StronglySorted name_lt (insert_by_name h a l).
  Proof.
    intros Hd HS. induction HS as [|b l HS IH HF]; simpl.
    - repeat constructor.
    - destruct (str_leb (class_name h a) (class_name h b)) eqn:E.
      + apply str_leb_lt in E as [E|E].
        * constructor; [constructor; assumption|]. constructor; [exact E|].
          rewrite Forall_forall in *. intros x Hx. eapply str_lt_trans; [exact E|apply HF, Hx].
        * exfalso. apply (Hd b); [left; reflexivity|congruence].
      + apply str_total in E. constructor.
        * apply IH. intros x Hx. apply Hd. right. exact Hx.
        * rewrite Forall_forall in *. intros x Hx.
          apply (Permutation_in _ (insert_perm a l)) in Hx as [<-|Hx]; [exact E|auto].
  Qed.

  Lemma sort_sorted l : NoDup l ->
    (forall x y, In x l -> In y l -> class_name h x = class_name h y -> x = y) ->
    StronglySorted name_lt (sort_by_name h l).
  Proof.
    induction l as [|a l IH]; simpl; intros HN HU; [constructor|].
    inversion HN; subst. apply insert_sorted.
    - intros x Hx Hn. apply (Permutation_in _ (sort_perm l)) in Hx.
      assert (x = a) by (apply HU; auto). subst. contradiction.
    - apply IH; auto.
  Qed.

  Lemma references_correct fuel ps : names_unique h -> length h < fuel ->
    (forall p, In p ps -> p < length h /\ forall cs es qs, nth_error h p <> Some (OGraph cs es qs)) ->
    exists l, references h fuel ps = Some l /\ NoDup l /\ StronglySorted name_lt l /\
      forall n, In n l <-> klass n /\ exists p, In p ps /\ reach h p n.
  Proof.
    intros HU Hf Hps.
    destruct (references_props_ok fuel ps Hf Hps [] (NoDup_nil _)) as (r & E & HN & Hr).
    exists (sort_by_name h r). unfold references. rewrite E. split; [reflexivity|].
    split; [eapply Permutation_NoDup; [apply Permutation_sym, sort_perm|exact HN]|].
    assert (HK : forall n, In n r -> klass n).
    { intros n Hn. apply Hr in Hn as [[]|[Hk _]]. exact Hk. }
    split.
    - apply sort_sorted; [exact HN|]. intros x y Hx Hy Hxy.
      destruct (HK x Hx) as (n1 & p1 & E1). destruct (HK y Hy) as (n2 & p2 & E2).
      unfold class_name in Hxy. rewrite E1, E2 in Hxy. subst. eapply HU; eassumption.
    - intros n. split.
      + intros Hn. apply (Permutation_in _ (sort_perm r)) in Hn.
        apply Hr in Hn as [[]|H]. exact H.
      + intros H. apply (Permutation_in _ (Permutation_sym (sort_perm r))). apply Hr. auto.
  Qed.
End Refs.

(** An embed reachable from a property passes on only registries that the
    enclosing composite has. *)
Lemma references_nested h fuel ps e n qs l l' :
  heap_wf h -> graph_is_root h -> names_unique h -> length h < fuel ->
  (forall p, In p ps -> p < length h /\ forall cs es qs, nth_error h p <> Some (OGraph cs es qs)) ->
  nth_error h e = Some (OEmbed n qs) -> (exists p, In p ps /\ reach h p e) ->
  references h fuel ps = Some l -> references h fuel qs = Some l' -> incl l' l.
Proof.
  intros WF ROOT HU Hf Hps He [p [Hp Hr]] E E'.
  assert (Hqs : forall x, In x qs -> x < length h /\ forall cs es rs, nth_error h x <> Some (OGraph cs es rs)).
  { intros x Hx. assert (ED : edge h e x) by (eapply e_embed; eassumption). split.
    - apply (WF e), ED.
    - intros. apply (ROOT _ _ ED). }
  destruct (references_correct h WF ROOT fuel ps HU Hf Hps) as (l1 & E1 & _ & _ & H1).
  destruct (references_correct h WF ROOT fuel qs HU Hf Hqs) as (l2 & E2 & _ & _ & H2).
  rewrite E in E1. injection E1 as <-. rewrite E' in E2. injection E2 as <-.
  intros x Hx. apply H2 in Hx as [Hk [y [Hy Hyx]]]. apply H1. split; [exact Hk|].
  exists p. split; [exact Hp|]. eapply reach_trans; [exact Hr|].
  econstructor; [|exact Hyx]. eapply e_embed; eassumption.
Qed.

Lemma isinstance_kind o q : isinstance o q = true <-> kind_of o = q.
Proof.
  destruct o, q; simpl; split; intros H; try discriminate; try reflexivity.
  - destruct p, p0; simpl in H; congruence.
  - injection H as ->. destruct p0; reflexivity.
Qed.

Lemma needs_type_exact h q a fuel : heap_wf h -> a < length h -> 2 * length h + 2 <= fuel ->
  exists b, needs_type h q fuel a = Some b /\
    (b = true <-> exists y, reach h a y /\ has_kind h y q).
Proof.
  intros WF Ha Hf. destruct (needs_type_correct h q WF a fuel Ha Hf) as [b [E H]].
  exists b. split; [exact E|]. rewrite H. split; intros [y [Hy [o [Eo Ho]]]]; exists y;
    (split; [exact Hy|]); exists o; (split; [exact Eo|]); apply isinstance_kind; exact Ho.
Qed.

Lemma SS_weaken {A} (R S : A -> A -> Prop) l :
  (forall x y, In x l -> In y l -> R x y -> S x y) -> StronglySorted R l -> StronglySorted S l.
Proof.
  intros H HS. induction HS as [|x l HS IH HF]; constructor.
  - apply IH. intros y z Hy Hz. apply H; right; assumption.
  - rewrite Forall_forall in *. intros y Hy. apply H; [left; reflexivity|right; exact Hy|auto].
Qed.

Lemma references_exact h fuel ps : heap_wf h -> graph_is_root h -> names_unique h ->
  length h < fuel -> (forall p, In p ps -> value_type h p) ->
  exists l, references h fuel ps = Some l /\ NoDup l /\ StronglySorted (name_before h) l /\
    forall n, In n l <-> has_kind h n KClass /\ exists p, In p ps /\ reach h p n.
Proof.
  intros WF ROOT HU Hf Hps.
  destruct (references_correct h WF ROOT fuel ps HU Hf Hps) as (l & E & HN & HS & HI).
  exists l. split; [exact E|]. split; [exact HN|]. split.
  - eapply SS_weaken; [|exact HS]. intros x y Hx Hy Hxy.
    apply HI in Hx as [(n & qs & E1) _]. apply HI in Hy as [(m & rs & E2) _].
    exists n, qs, m, rs. split; [exact E1|]. split; [exact E2|].
    unfold name_lt, class_name in Hxy. rewrite E1, E2 in Hxy. exact Hxy.
  - intros n. rewrite HI. split; intros [Hk H]; (split; [|exact H]).
    + destruct Hk as (m & qs & E1). exists (OClass m qs). auto.
    + destruct Hk as (o & E1 & Ho). destruct o; try discriminate. exists name, props. exact E1.
Qed.
