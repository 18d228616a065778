(** The complaints about a document, site by site (C51). *)
From Coq Require Import String List ZArith Lia.
From Verif Require Import Base M_Naming M_Dec M_Schema S_Conform S_Blame.
Import ListNotations.
Local Open Scope nat_scope.

Section Generic.
  Context {E T : Type}.
  Variable (ref_of : E -> str) (msg_of : E -> T) (text : site -> complaint -> T).
  Variable G : graph.
  Variable L : rules.
  Variable known : str -> str -> Prop.
  Hypothesis kind_array : forall t mn mx v, r_kind L (TArray t mn mx) v <-> exists l, v = JArr l.
  Hypothesis kind_map : forall t v, r_kind L (TMap t) v <-> is_object v.
  Hypothesis kind_class : forall n v, r_kind L (TClass n) v <-> is_text v.

  Definition said (r : str) (s : site) (e : E) : Prop :=
    exists s' k, flaw G L known r s (ref_of e) s' k /\ msg_of e = text s' k.
  Definition own (r : str) (s : site) (e : E) : Prop :=
    ref_of e = r /\ exists k, holds L known s k /\ msg_of e = text s k.
  Definition one (r : str) (s : site) (k : complaint) (e : E) : Prop := ref_of e = r /\ msg_of e = text s k.

  Lemma said_step r s e : said r s e <-> own r s e \/ exists r' s', step G L r s r' s' /\ said r' s' e.
  Proof.
    split.
    - intros (s' & k & [W H] & M). inversion W as [E1 E2|? ? ? ? St W' E1 E2]; subst.
      + left. split; [reflexivity|]. eauto.
      + right. exists r1, s1. split; [exact St|]. exists s', k. split; [split; assumption|exact M].
    - intros [(R & k & H & M)|(r' & s' & St & s2 & k & [W H] & M)].
      + exists s, k. split; [|exact M]. split; [|exact H]. rewrite R. constructor.
      + exists s2, k. split; [|exact M]. split; [|exact H]. econstructor; eassumption.
  Qed.

  (** A site below which there is nothing. *)
  Lemma said_own r s e : (forall r' s', ~ step G L r s r' s') -> (said r s e <-> own r s e).
  Proof.
    intros N. rewrite said_step. split; [intros [H|(r' & s' & H & _)]; [exact H|]|auto].
    exfalso. exact (N _ _ H).
  Qed.

  (** The only complaint. *)
  Lemma said_one r s k0 e : (forall r' s', ~ step G L r s r' s') ->
    (forall k, holds L known s k <-> k = k0) -> (said r s e <-> one r s k0 e).
  Proof.
    intros N H. rewrite (said_own _ _ _ N). unfold own, one. split.
    - intros (R & k & Hk & M). apply H in Hk. subst. auto.
    - intros (R & M). split; [exact R|]. exists k0. split; [apply H; reflexivity|exact M].
  Qed.

  Lemma said_none r s e : (forall r' s', ~ step G L r s r' s') ->
    (forall k, ~ holds L known s k) -> (said r s e <-> False).
  Proof.
    intros N H. rewrite (said_own _ _ _ N). unfold own. split; [|tauto].
    intros (_ & k & Hk & _). exact (H _ Hk).
  Qed.

  Lemma step_scalar r t v r' s' : scalar t = true -> ~ step G L r (Value t v) r' s'.
  Proof. intros Hs H. inversion H; subst; discriminate. Qed.

  (** *** Scalars *)

  Lemma holds_bool v k : holds L known (Value TBool v) k <-> k = BadKind /\ ~ r_kind L TBool v.
  Proof.
    destruct k; cbn; split; try (intros [H _]; discriminate H); try tauto.
    + intros [_ H]. split; [discriminate|exact H].
    + intros (b & H & _). discriminate H.
    + intros (b & H & _). discriminate H.
    + intros (_ & b & H & _). discriminate H.
    + intros (_ & b & H & _). discriminate H.
    + intros (? & ? & ? & l & H & _). discriminate H.
    + intros (? & ? & ? & l & H & _). discriminate H.
  Qed.

  Lemma holds_text t v k : textual t = true ->
    (holds L known (Value t v) k <->
     (k = BadKind /\ ~ r_kind L t v) \/ (k = BadText /\ exists s, v = JStr s /\ ~ r_leaf L t v)).
  Proof.
    intros Ht. assert (Hb : bounds_of t = None) by (destruct t; first [reflexivity|discriminate Ht]).
    assert (Ha : forall t' mn mx, t <> TArray t' mn mx) by (destruct t; discriminate).
    assert (Hc : forall n, t <> TClass n) by (destruct t; discriminate).
    assert (He : forall n, t <> TEmbed n) by (destruct t; discriminate).
    assert (Hi : forall b, t <> TInt b) by (destruct t; discriminate).
    destruct k; cbn; split; try (intros [[H _]|[H _]]; discriminate H); try tauto.
    + intros [[_ H]|[H _]]; [|discriminate H]. split; [exact He|exact H].
    + intros [[H _]|[_ H]]; [discriminate H|]. split; [exact Ht|exact H].
    + intros (b & H & _). destruct (Hi _ H).
    + intros (b & H & _). destruct (Hi _ H).
    + intros (_ & b & H & _). congruence.
    + intros (_ & b & H & _). congruence.
    + intros (? & ? & ? & l & H & _). destruct (Ha _ _ _ H).
    + intros (? & ? & ? & l & H & _). destruct (Ha _ _ _ H).
    + intros (H & _). destruct (Hc _ H).
  Qed.

  Lemma holds_number t b v k : bounds_of t = Some b ->
    (holds L known (Value t v) k <->
     (k = BadKind /\ ~ r_kind L t v) \/
     (k = NotWhole /\ t = TInt b /\ r_kind L t v /\ ~ r_whole L v) \/
     (k = TooLarge /\ t = TInt b /\ r_kind L t v /\ r_whole L v /\ ~ r_fits L v) \/
     (exists m, k = Below m /\ number L t v /\ b_min b = Some m /\ ~ r_in L t (low b) v) \/
     (exists m, k = Above m /\ number L t v /\ b_max b = Some m /\ ~ r_in L t (high b) v /\
        (r_first L = true -> r_in L t (low b) v))).
  Proof.
    intros Hb.
    assert (Hx : textual t = false) by (destruct t; first [reflexivity|discriminate Hb]).
    assert (Ha : forall t' mn mx, t <> TArray t' mn mx) by (destruct t; discriminate).
    assert (Hc : forall n, t <> TClass n) by (destruct t; discriminate).
    assert (He : forall n, t <> TEmbed n) by (destruct t; discriminate).
    assert (Hi : forall b', t = TInt b' -> b' = b) by (intros b' ->; cbn in Hb; congruence).
    split.
    - destruct k; cbn.
      + intros [_ H]. auto.
      + intros [H _]. congruence.
      + intros (b' & H & Hr). pose proof (Hi _ H). subst b'. auto 10.
      + intros (b' & H & Hr). pose proof (Hi _ H). subst b'. auto 10.
      + intros (N & b' & H & Hr). replace b' with b in Hr by congruence. right. right. right. left. exists m. tauto.
      + intros (N & b' & H & Hr). replace b' with b in Hr by congruence. right. right. right. right. exists m. tauto.
      + intros (? & ? & ? & l & H & _). destruct (Ha _ _ _ H).
      + intros (? & ? & ? & l & H & _). destruct (Ha _ _ _ H).
      + intros (H & _). destruct (Hc _ H).
      + tauto.
      + tauto.
    - intros [(-> & H)|[(-> & H)|[(-> & H)|[(m & -> & N & H)|(m & -> & N & H)]]]]; cbn.
      + auto.
      + exists b. exact H.
      + exists b. exact H.
      + split; [exact N|]. exists b. tauto.
      + split; [exact N|]. exists b. tauto.
  Qed.

  Lemma said_scalar r t v e : scalar t = true -> (said r (Value t v) e <-> own r (Value t v) e).
  Proof. intros H. apply said_own. intros r' s'. apply step_scalar. exact H. Qed.

  (** *** Arrays *)

  Lemma said_not_array r t mn mx v e : (forall l, v <> JArr l) ->
    (said r (Value (TArray t mn mx) v) e <-> one r (Value (TArray t mn mx) v) BadKind e).
  Proof.
    intros N. apply said_one.
    - intros r' s' H. inversion H; subst. eapply N. reflexivity.
    - intros k. destruct k; cbn; split; try discriminate; try tauto.
      + intros _. split; [discriminate|]. rewrite kind_array. intros [l ->]. eapply N. reflexivity.
      + intros [H _]. discriminate H.
      + intros (b & H & _). discriminate H.
      + intros (b & H & _). discriminate H.
      + intros (_ & b & H & _). discriminate H.
      + intros (_ & b & H & _). discriminate H.
      + intros (? & ? & ? & l & _ & -> & _). exfalso. eapply N. reflexivity.
      + intros (? & ? & ? & l & _ & -> & _). exfalso. eapply N. reflexivity.
      + intros (H & _). discriminate H.
  Qed.

  Lemma holds_array t mn mx l k : holds L known (Value (TArray t mn mx) (JArr l)) k <->
    (exists n, k = TooFew n /\ mn = Some n /\ (Z.of_nat (length l) < n)%Z) \/
    (exists n, k = TooMany n /\ mx = Some n /\ (n < Z.of_nat (length l))%Z /\
       forall m, mn = Some m -> (m <= Z.of_nat (length l))%Z).
  Proof.
    destruct k; cbn; split;
      try (intros [(? & H & _)|(? & H & _)]; discriminate H); try tauto.
    - intros [_ H]. exfalso. apply H. rewrite kind_array. eauto.
    - intros [H _]. discriminate H.
    - intros (b & H & _). discriminate H.
    - intros (b & H & _). discriminate H.
    - intros (_ & b & H & _). discriminate H.
    - intros (_ & b & H & _). discriminate H.
    - intros (t0 & mn0 & mx0 & l0 & [= <- <- <-] & [= <-] & H). left. exists n. tauto.
    - intros [(? & [= <-] & H)|(? & H & _)]; [|discriminate H]. exists t, mn, mx, l. tauto.
    - intros (t0 & mn0 & mx0 & l0 & [= <- <- <-] & [= <-] & H). right. exists n. tauto.
    - intros [(? & H & _)|(? & [= <-] & H)]; [discriminate H|]. exists t, mn, mx, l. tauto.
    - intros (H & _). discriminate H.
  Qed.

  Lemma said_small r t mn mx l m e : mn = Some m -> (Z.of_nat (length l) < m)%Z ->
    (said r (Value (TArray t mn mx) (JArr l)) e <-> one r (Value (TArray t mn mx) (JArr l)) (TooFew m) e).
  Proof.
    intros -> H. apply said_one.
    - intros r' s' St. inversion St; subst. match goal with X : size_ok _ _ _ |- _ => destruct X as [X _]; specialize (X m eq_refl); lia end.
    - intros k. rewrite holds_array. split.
      + intros [(n & -> & [= <-] & _)|(n & _ & _ & _ & C)]; [reflexivity|]. specialize (C m eq_refl). lia.
      + intros ->. left. eauto.
  Qed.

  Lemma said_big r t mn mx l m e : (forall n, mn = Some n -> (n <= Z.of_nat (length l))%Z) ->
    mx = Some m -> (m < Z.of_nat (length l))%Z ->
    (said r (Value (TArray t mn mx) (JArr l)) e <-> one r (Value (TArray t mn mx) (JArr l)) (TooMany m) e).
  Proof.
    intros Hn -> H. apply said_one.
    - intros r' s' St. inversion St; subst. match goal with X : size_ok _ _ _ |- _ => destruct X as [_ X]; specialize (X m eq_refl); lia end.
    - intros k. rewrite holds_array. split.
      + intros [(n & -> & En & C)|(n & -> & [= <-] & _)]; [|reflexivity]. specialize (Hn n En). lia.
      + intros ->. right. exists m. auto.
  Qed.

  Lemma said_items r t mn mx l e : size_ok mn mx (length l) ->
    (said r (Value (TArray t mn mx) (JArr l)) e <->
     exists i v, nth_error l i = Some v /\ said (below_ref r (dec_nat i)) (Value t v) e).
  Proof.
    intros [S1 S2]. rewrite said_step. split.
    - intros [(_ & k & H & _)|(r' & s' & St & H)].
      + rewrite holds_array in H. exfalso.
        destruct H as [(n & _ & En & C)|(n & _ & En & C & _)]; [specialize (S1 n En)|specialize (S2 n En)]; lia.
      + inversion St; subst. eauto.
    - intros (i & v & Hi & H). right. eexists. eexists. split; [|exact H].
      constructor; [split; assumption|exact Hi].
  Qed.

  (** *** Maps *)

  Lemma said_not_map r t v e : ~ is_object v ->
    (said r (Value (TMap t) v) e <-> one r (Value (TMap t) v) BadKind e).
  Proof.
    intros N. apply said_one.
    - intros r' s' H. inversion H; subst. apply N. eexists. reflexivity.
    - intros k. destruct k; cbn; split; try discriminate; try tauto.
      + intros _. split; [discriminate|]. rewrite kind_map. exact N.
      + intros [H _]. discriminate H.
      + intros (b & H & _). discriminate H.
      + intros (b & H & _). discriminate H.
      + intros (_ & b & H & _). discriminate H.
      + intros (_ & b & H & _). discriminate H.
      + intros (? & ? & ? & l & H & _). discriminate H.
      + intros (? & ? & ? & l & H & _). discriminate H.
      + intros (H & _). discriminate H.
  Qed.

  Lemma said_map r t l e : said r (Value (TMap t) (JObj l)) e <->
    exists k v, In (k, v) l /\ said (below_ref r (r_quote L k)) (Value t v) e.
  Proof.
    rewrite said_step. split.
    - intros [(_ & k & H & _)|(r' & s' & St & H)].
      + exfalso. destruct k; cbn in H; try tauto.
        * destruct H as [_ H]. apply H. rewrite kind_map. eexists. reflexivity.
        * destruct H as [H _]. discriminate H.
        * destruct H as (b & H & _). discriminate H.
        * destruct H as (b & H & _). discriminate H.
        * destruct H as (_ & b & H & _). discriminate H.
        * destruct H as (_ & b & H & _). discriminate H.
        * destruct H as (? & ? & ? & ? & H & _). discriminate H.
        * destruct H as (? & ? & ? & ? & H & _). discriminate H.
        * destruct H as (H & _). discriminate H.
      + inversion St; subst. eauto.
    - intros (k & v & Hi & H). right. eexists. eexists. split; [|exact H]. constructor. exact Hi.
  Qed.

  (** *** References *)

  Lemma step_class r n v r' s' : ~ step G L r (Value (TClass n) v) r' s'.
  Proof. intros H. inversion H. Qed.

  Lemma said_not_text r n v e : ~ is_text v ->
    (said r (Value (TClass n) v) e <-> one r (Value (TClass n) v) BadKind e).
  Proof.
    intros N. apply said_one; [intros ? ?; apply step_class|].
    intros k. destruct k; cbn; split; try discriminate; try tauto.
    + intros _. split; [discriminate|]. rewrite kind_class. exact N.
    + intros [H _]. discriminate H.
    + intros (b & H & _). discriminate H.
    + intros (b & H & _). discriminate H.
    + intros (_ & b & H & _). discriminate H.
    + intros (_ & b & H & _). discriminate H.
    + intros (? & ? & ? & l & H & _). discriminate H.
    + intros (? & ? & ? & l & H & _). discriminate H.
    + intros (_ & -> & _). exfalso. apply N. eexists. reflexivity.
  Qed.

  Lemma holds_class n id k : holds L known (Value (TClass n) (JStr id)) k <->
    k = NoInstance n id /\ ~ known n id.
  Proof.
    destruct k; cbn; split; try (intros [H _]; discriminate H); try tauto.
    + intros [_ H]. exfalso. apply H. rewrite kind_class. eexists. reflexivity.
    + intros (b & H & _). discriminate H.
    + intros (b & H & _). discriminate H.
    + intros (_ & b & H & _). discriminate H.
    + intros (_ & b & H & _). discriminate H.
    + intros (? & ? & ? & l & H & _). discriminate H.
    + intros (? & ? & ? & l & H & _). discriminate H.
    + intros ([= <-] & [= <-] & H). auto.
    + intros ([= <- <-] & H). auto.
  Qed.

  Lemma said_unknown r n id e : ~ known n id ->
    (said r (Value (TClass n) (JStr id)) e <-> one r (Value (TClass n) (JStr id)) (NoInstance n id) e).
  Proof.
    intros N. apply said_one; [intros ? ?; apply step_class|]. intros k. rewrite holds_class. tauto.
  Qed.

  Lemma said_known r n id e : known n id -> (said r (Value (TClass n) (JStr id)) e <-> False).
  Proof.
    intros K. apply said_none; [intros ? ?; apply step_class|]. intros k. rewrite holds_class. tauto.
  Qed.

  (** *** Objects *)

  Lemma said_embed r n em v e : find_embed G n = Some em ->
    (said r (Value (TEmbed n) v) e <-> said r (Object (e_props em) v) e).
  Proof.
    intros F. rewrite said_step. split.
    - intros [(_ & k & H & _)|(r' & s' & St & H)].
      + exfalso. destruct k; cbn in H; try tauto.
        * destruct H as [H _]. eapply H. reflexivity.
        * destruct H as [H _]. discriminate H.
        * destruct H as (b & H & _). discriminate H.
        * destruct H as (b & H & _). discriminate H.
        * destruct H as (_ & b & H & _). discriminate H.
        * destruct H as (_ & b & H & _). discriminate H.
        * destruct H as (? & ? & ? & ? & H & _). discriminate H.
        * destruct H as (? & ? & ? & ? & H & _). discriminate H.
        * destruct H as (H & _). discriminate H.
      + inversion St; subst. congruence.
    - intros H. right. exists r, (Object (e_props em) v). split; [constructor; exact F|exact H].
  Qed.

  Lemma said_not_object r ps v e : ~ is_object v ->
    (said r (Object ps v) e <-> one r (Object ps v) BadKind e).
  Proof.
    intros N. apply said_one.
    - intros r' s' H. inversion H; subst. apply N. eexists. reflexivity.
    - intros k. destruct k; cbn; split; try discriminate; try tauto.
      intros (l & p & -> & _). exfalso. apply N. eexists. reflexivity.
  Qed.

  Lemma said_object r ps l e : said r (Object ps (JObj l)) e <->
    exists p, In p ps /\
      ((p_optional p = false /\ (forall x, lookup (p_json p) l = Some x -> ~ r_given L x) /\
        one r (Object ps (JObj l)) (Missing (p_json p)) e) \/
       (exists v, lookup (p_json p) l = Some v /\ r_given L v /\
          said (below_ref r (p_json p)) (Value (p_type p) v) e)).
  Proof.
    rewrite said_step. split.
    - intros [(R & k & H & M)|(r' & s' & St & H)].
      + destruct k; cbn in H; try tauto.
        * exfalso. apply H. eexists. reflexivity.
        * destruct H as (l0 & p & [= <-] & Hp & <- & O & A). exists p. split; [exact Hp|]. left.
          repeat split; auto.
      + inversion St; subst. eauto 10.
    - intros (p & Hp & [(O & A & R & M)|(v & Ev & Gv & H)]).
      + left. split; [exact R|]. exists (Missing (p_json p)). split; [|exact M]. cbn. eauto 10.
      + right. eexists. eexists. split; [|exact H]. constructor; assumption.
  Qed.

  (** *** The graph *)

  Lemma said_registry r c v e : said r (Registry c v) e <->
    own r (Registry c v) e \/
    exists m id x, v = JObj m /\ In (id, x) m /\ said (below_ref r (r_quote L id)) (Object (c_props c) x) e.
  Proof.
    rewrite said_step. split; (intros [H|H]; [left; exact H|right]).
    - destruct H as (r' & s' & St & H). inversion St; subst. eauto 10.
    - destruct H as (m & id & x & -> & Hi & H). eexists. eexists. split; [|exact H]. constructor. exact Hi.
  Qed.

  Lemma own_registry r c v e : own r (Registry c v) e <->
    ref_of e = r /\
    ((~ is_object v /\ msg_of e = text (Registry c v) BadKind) \/
     exists m id p, v = JObj m /\ In id (keys m) /\ c_id_pattern c = Some p /\ ~ r_id L p id /\
       msg_of e = text (Registry c v) (BadId p id)).
  Proof.
    unfold own. split.
    - intros (R & k & H & M). split; [exact R|]. destruct k; cbn in H; try tauto.
      destruct H as (m & H). right. exists m, id, p. tauto.
    - intros (R & [(H & M)|(m & id & p & H1 & H2 & H3 & H4 & M)]); (split; [exact R|]); eexists; (split; [|exact M]); cbn; eauto 10.
  Qed.

  Lemma said_whole r v e : said r (Whole v) e <->
    said r (Object (g_props G) v) e \/
    exists l c x, v = JObj l /\ In c (g_classes G) /\ lookup (r_key L c) l = Some x /\ r_given L x /\
      said (below_ref r (r_key L c)) (Registry c x) e.
  Proof.
    rewrite said_step. split.
    - intros [(_ & k & H & _)|(r' & s' & St & H)].
      + destruct k; destruct H.
      + inversion St; subst; [right|left; exact H]. eauto 10.
    - intros [H|(l & c & x & -> & Hc & Ex & Gx & H)]; right; eexists; eexists; (split; [|exact H]); constructor; assumption.
  Qed.

  Lemma within_Object r ps v r' s : within G L r (Object ps v) r' s -> ~ is_registry s.
  Proof.
    intros W.
    assert (H : forall r s r' s', within G L r s r' s' ->
      match s with Object _ _ | Value _ _ => True | _ => False end -> ~ is_registry s').
    { clear. induction 1 as [r s|r s r1 s1 r2 s2 St _ IH]; intros Hs.
      - destruct s; cbn in *; auto.
      - apply IH. inversion St; subst; cbn in *; auto. }
    eapply H; [exact W|exact I].
  Qed.

  Lemma said_registries r v e :
    (exists s k, is_registry s /\ flaw G L known r (Whole v) (ref_of e) s k /\ msg_of e = text s k) <->
    exists l c x, v = JObj l /\ In c (g_classes G) /\ lookup (r_key L c) l = Some x /\ r_given L x /\
      own (below_ref r (r_key L c)) (Registry c x) e.
  Proof.
    split.
    - intros (s & k & Hs & [W H] & M). inversion W as [E1 E2|? ? ? ? St W' E1 E2]; subst; [destruct Hs|].
      inversion St; subst.
      + inversion W' as [E1 E2|? ? ? ? St' W2 E1 E2]; subst.
        * exists l, c, v0. do 4 (split; [first [reflexivity|assumption]|]). split; [symmetry; assumption|]. exists k. auto.
        * exfalso. inversion St'; subst. eapply within_Object; eassumption.
      + exfalso. eapply within_Object; eassumption.
    - intros (l & c & x & -> & Hc & Ex & Gx & R & k & H & M). exists (Registry c x), k.
      split; [exact I|]. split; [|exact M]. split; [|exact H].
      eapply wi_below; [constructor; eassumption|]. rewrite R. constructor.
  Qed.
End Generic.
