(** What is known about an accepted document and its schema. *)
From Coq Require Import String List Arith NArith ZArith QArith Bool Lia Lqa Permutation Floats.SpecFloat.
From Verif Require Import Base M_Naming M_Schema M_Dec M_Strftime M_Validate S_Conform S_Walk P_Naming S_Validate P_Validate
  P_ValidateType P_ValidateDoc P_Parse P_NoRaise P_ParseInv.
Import ListNotations.
Open Scope list_scope.
Local Open Scope nat_scope.

Lemma only_key l ks k v : only l ks -> In (k, v) l -> In k (map s_ ks).
Proof. intros H Hin. apply H. now apply (in_map fst) in Hin. Qed.

Section Definitions.
  Variables (re_ok : str -> bool) (ordered : bool).

  Lemma type_ok_values names top m m' : json_wf (JObj m) -> type_ok re_ok names top (JObj m) ->
    In (s_ "values", JObj m') m -> type_ok re_ok names false (JObj m').
  Proof.
    intros Hw Hok Hin. apply wf_obj in Hw. destruct Hw as [Hn Hw]. remember (JObj m) as M eqn:EM.
    destruct Hok as [u l H1 H2 H3 H4 | u l H1 H2 H3 H4 H5 H6 H7 | u l H1 H2 H3 H4 H5 |
        u l H1 H2 H3 H4 H5 | l v H1 H2 H3 H4 H5 H6 H7 H8 | l v H1 H2 H3 H4 H5 | n l H1 H2 H3]; injection EM as ->.
    all: try (exfalso; match goal with H : members ?t _ _ |- _ => apply (only_key _ _ _ _ H) in Hin; destruct t end;
         cbn in Hin; repeat destruct Hin as [Hin | Hin]; (discriminate || contradiction)).
    - assert (E := unique _ Hn _ _ _ H7 Hin). subst v. exact H8.
    - assert (E := unique _ Hn _ _ _ H4 Hin). subst v. exact H5.
  Qed.

  Lemma defined_ok l m : json_wf (JObj l) -> document re_ok ordered (JObj l) -> defines l m ->
    json_wf (JObj m) /\ part (JObj m) (JObj l) /\ exists names top, (forall n, In n names -> ~ In n NONCOMPOSITE) /\ type_ok re_ok names top (JObj m).
  Proof.
    intros Hw0 Hdoc Hdef. induction Hdef as [c ps k m Hc Hps Hm | m m' Hdef IH Hm'].
    - inversion Hdoc as [l' n classes embeds cns ens Hkeys Horder Hname Hcap Hdesc Hcpp Hgo Hpy Hcl Hem Hcns Hens Hnd Hcok Heok Hprops Hpl El]; subst l'.
      assert (Hw := Hw0). apply wf_obj in Hw. destruct Hw as [Hn Hw].
      assert (Hnames : forall x, In x (n :: cns ++ ens) -> ~ In x NONCOMPOSITE).
      { assert (W1 := elements_wf l _ _ Hw0 Hcl). assert (W2 := elements_wf l _ _ Hw0 Hem).
        intros x Hx. apply capital_not_noncomposite. destruct Hx as [<- | Hx]; [exact Hcap|].
        apply in_app_iff in Hx. destruct Hx as [Hx | Hx].
        - apply (Forall2_In_right _ _ _ Hcns) in Hx. destruct Hx as (d & Hd & o & -> & Ho).
          destruct (Hcok _ Hd) as (o' & [= <-] & _ & (y & Hy & t & -> & Ht) & _).
          assert (Hwc := W1 _ Hd). apply wf_obj in Hwc. assert (E := unique _ (proj1 Hwc) _ _ _ Ho Hy).
          injection E as ->. now apply lax_identifier_starts.
        - apply (Forall2_In_right _ _ _ Hens) in Hx. destruct Hx as (d & Hd & o & -> & Ho).
          destruct (Heok _ Hd) as (o' & [= <-] & _ & (y & Hy & t & -> & Ht) & _).
          assert (Hwc := W2 _ Hd). apply wf_obj in Hwc. assert (E := unique _ (proj1 Hwc) _ _ _ Ho Hy).
          injection E as ->. exact Ht. }
      assert (A : json_wf (JObj c) /\ part (JObj c) (JObj l) /\
        exists reserved, maybe c "properties" (properties_ok re_ok ordered (n :: cns ++ ens) reserved)).
      { destruct Hc as [|cs c Hl Hin|es e Hl Hin].
        - split; [exact Hw0|]. split; [constructor|]. eauto.
        - assert (E := list_under_unique l _ _ _ Hn Hl Hcl). subst cs. split; [exact (elements_wf l _ _ Hw0 Hcl _ Hin)|].
          split.
          + destruct (list_part _ _ _ _ Hcl Hin) as (a & Ha & Hx). eapply part_object; [exact Ha|]. eapply part_array; [exact Hx | constructor].
          + destruct (Hcok _ Hin) as (c' & [= <-] & _ & _ & _ & _ & _ & H). eauto.
        - assert (E := list_under_unique l _ _ _ Hn Hl Hem). subst es. split; [exact (elements_wf l _ _ Hw0 Hem _ Hin)|].
          split.
          + destruct (list_part _ _ _ _ Hem Hin) as (a & Ha & Hx). eapply part_object; [exact Ha|]. eapply part_array; [exact Hx | constructor].
          + destruct (Heok _ Hin) as (c' & [= <-] & _ & _ & _ & H). eauto. }
      destruct A as (Wc & Pc & reserved & Hp). destruct (Hp _ Hps) as (ps' & [= <-] & H).
      destruct (H _ _ Hm) as (_ & _ & m' & [= <-] & _ & _ & _ & _ & _ & T).
      assert (Wp : json_wf (JObj ps)) by (apply wf_obj in Wc; eapply (proj2 Wc); eauto).
      assert (Wm : json_wf (JObj m)) by (apply wf_obj in Wp; eapply (proj2 Wp); eauto).
      split; [exact Wm|]. split; [|eauto].
      assert (Hpart : forall w, part w (JObj c) -> part w (JObj l)).
      { intros w Hw'. clear - Hw' Pc. remember (JObj l) as L. clear HeqL. induction Pc; [assumption | |].
        - eapply part_array; eauto.
        - eapply part_object; eauto. }
      apply Hpart. eapply part_object; [exact Hps|]. eapply part_object; [exact Hm | constructor].
    - destruct IH as (Wm & Pm & names & top & Hns & T).
      assert (Wm' : json_wf (JObj m')) by (assert (W := Wm); apply wf_obj in W; eapply (proj2 W); eauto).
      split; [exact Wm'|]. split.
      + remember (JObj l) as L. clear - Pm Hm'. induction Pm as [|? ? ? ? IH|? ? ? ? ? IH].
        * eapply part_object; [exact Hm' | constructor].
        * eapply part_array; eauto.
        * eapply part_object; eauto.
      + exists names, false. split; [exact Hns|]. exact (type_ok_values _ _ _ _ Wm T Hm').
  Qed.
End Definitions.

(** * Ranges *)

Lemma below_not a b : value a <> NaN -> value b <> NaN -> ~ below (value b) (value a) ->
  below (value a) (value b) \/ same (value a) (value b).
Proof.
  destruct (value a) as [p| | |], (value b) as [q| | |]; cbn; try tauto. intros _ _ H.
  destruct (Q_dec p q) as [[H1 | H1] | H1]; auto. contradiction.
Qed.

Definition finite_bounds (l : list (str * jval)) : Prop :=
  forall k v, In (k, v) l -> a_number v -> exists q, value v = Fin q.

(** The bounds of a range are a pair of optional rational numbers. *)
Lemma bound_of l k : NoDup (keys l) -> finite_bounds l -> maybe l k a_number ->
  no_member l k \/ exists v q, In (s_ k, v) l /\ value v = Fin q /\ forall w, In (s_ k, w) l -> w = v.
Proof.
  intros Hn Hf H. destruct (lookup (s_ k) l) as [v|] eqn:E; [|left; now apply no_member_lookup]. right.
  apply lookup_In in E. destruct (Hf _ _ E (H _ E)) as (q & Hq). exists v, q. split; [exact E|]. split; [exact Hq|].
  intros w Hw. eapply unique; eauto.
Qed.

Lemma range_rational l : NoDup (keys l) -> finite_bounds l -> maybe l "minimum" a_number -> maybe l "maximum" a_number ->
  range_stated l -> exists q, within l (Fin q).
Proof.
  intros Hn Hf H1 H2 Hr.
  destruct (bound_of l "minimum" Hn Hf H1) as [Na | (a & p & Ha & Ep & Ua)];
  destruct (bound_of l "maximum" Hn Hf H2) as [Nb | (b & q & Hb & Eq & Ub)].
  - exists 0%Q. split; intros m Hm; exfalso; [apply Na | apply Nb]; now apply (in_map fst) in Hm.
  - exists (q - 1)%Q. split; intros m Hm; [exfalso; apply Na; now apply (in_map fst) in Hm|].
    rewrite (Ub m Hm), Eq. left. cbn. lra.
  - exists (p + 1)%Q. split; intros m Hm; [|exfalso; apply Nb; now apply (in_map fst) in Hm].
    rewrite (Ua m Hm), Ep. left. cbn. lra.
  - destruct (Hr a b Ha Hb) as [R1 R2]. rewrite Ep, Eq in R1, R2. cbn [below same] in R1, R2.
    destruct (Qeq_dec p q) as [E | E].
    + exists p. split; intros m Hm.
      * rewrite (Ua m Hm), Ep. right. split; [|cbn; reflexivity]. intros Hx. apply R2; auto.
      * rewrite (Ub m Hm), Eq. right. split; [|cbn; exact E]. intros Hx. apply R2; auto.
    + exists ((p + q) / 2)%Q. assert (Hlt : (p < q)%Q) by (destruct (Q_dec p q) as [[?|?]|?]; [assumption | contradiction | contradiction]).
      split; intros m Hm.
      * rewrite (Ua m Hm), Ep. left. cbn [below]. apply Qlt_shift_div_l; lra.
      * rewrite (Ub m Hm), Eq. left. cbn [below]. apply Qlt_shift_div_r; lra.
Qed.

Lemma range_integer l : NoDup (keys l) -> maybe l "minimum" an_integer -> maybe l "maximum" an_integer ->
  range_stated l ->
  (forall a b, In (s_ "minimum", JInt a) l -> In (s_ "maximum", JInt b) l -> b = (a + 1)%Z ->
     ~ (In (s_ "exclusive_minimum", JBool true) l /\ In (s_ "exclusive_maximum", JBool true) l)) ->
  exists z, within l (Fin (inject_Z z)).
Proof.
  intros Hn H1 H2 Hr Hex.
  destruct (lookup (s_ "minimum") l) as [a|] eqn:Ea; destruct (lookup (s_ "maximum") l) as [b|] eqn:Eb.
  - apply lookup_In in Ea, Eb. destruct (H1 _ Ea) as (p & ->), (H2 _ Eb) as (q & ->).
    destruct (Hr _ _ Ea Eb) as [R1 R2]. cbn [value below same] in R1, R2.
    rewrite <- Zlt_Qlt in R1. assert (R2' : In (s_ "exclusive_minimum", JBool true) l \/ In (s_ "exclusive_maximum", JBool true) l -> p <> q).
    { intros Hx E. subst q. apply (R2 Hx). reflexivity. }
    assert (Hw : forall z, (p <= z <= q)%Z -> (In (s_ "exclusive_minimum", JBool true) l -> p < z)%Z ->
      (In (s_ "exclusive_maximum", JBool true) l -> z < q)%Z -> within l (Fin (inject_Z z))).
    { intros z Hz L1 L2. split; intros m Hm.
      - rewrite (unique l Hn _ _ _ Hm Ea). cbn [value below same]. rewrite <- Zlt_Qlt.
        destruct (Z.eq_dec p z) as [-> | Hne]; [|left; lia]. right. split; [intros Hx; specialize (L1 Hx); lia | reflexivity].
      - rewrite (unique l Hn _ _ _ Hm Eb). cbn [value below same]. rewrite <- Zlt_Qlt.
        destruct (Z.eq_dec z q) as [-> | Hne]; [|left; lia]. right. split; [intros Hx; specialize (L2 Hx); lia | reflexivity]. }
    assert (Hd : forall k, In (s_ k, JBool true) l \/ ~ In (s_ k, JBool true) l).
    { intros k. rewrite <- (flag_iff l Hn k). destruct (flag (s_ k) l); [left | right]; congruence. }
    destruct (Hd "exclusive_minimum"%string) as [X1 | X1], (Hd "exclusive_maximum"%string) as [X2 | X2].
    + exists (p + 1)%Z. assert (p <> q) by auto. assert (q <> p + 1)%Z by (intros E; apply (Hex p q Ea Eb E); auto).
      apply Hw; lia.
    + exists (p + 1)%Z. assert (p <> q) by auto. apply Hw; [lia | lia | contradiction].
    + exists p. assert (p <> q) by auto. apply Hw; [lia | contradiction | lia].
    + exists p. apply Hw; [lia | contradiction | contradiction].
  - apply lookup_In in Ea. destruct (H1 _ Ea) as (p & ->). exists (p + 1)%Z. split; intros m Hm.
    + rewrite (unique l Hn _ _ _ Hm Ea). left. cbn [value below]. rewrite <- Zlt_Qlt. lia.
    + apply (In_lookup _ _ _ Hn) in Hm. congruence.
  - apply lookup_In in Eb. destruct (H2 _ Eb) as (p & ->). exists (p - 1)%Z. split; intros m Hm.
    + apply (In_lookup _ _ _ Hn) in Hm. congruence.
    + rewrite (unique l Hn _ _ _ Hm Eb). left. cbn [value below]. rewrite <- Zlt_Qlt. lia.
  - exists 0%Z. split; intros m Hm; apply (In_lookup _ _ _ Hn) in Hm; congruence.
Qed.

Lemma sizes_some l : NoDup (keys l) -> maybe l "minimum_size" a_size -> maybe l "maximum_size" a_size -> sizes_stated l ->
  exists n : nat, (forall a, In (s_ "minimum_size", JInt a) l -> (a <= Z.of_nat n)%Z) /\
    (forall b, In (s_ "maximum_size", JInt b) l -> (Z.of_nat n <= b)%Z).
Proof.
  intros Hn H1 H2 Hs.
  destruct (lookup (s_ "minimum_size") l) as [a|] eqn:Ea.
  - apply lookup_In in Ea. destruct (H1 _ Ea) as (p & -> & Hp). exists (Z.to_nat p). rewrite Z2Nat.id by lia. split.
    + intros a Ha. assert (E := unique l Hn _ _ _ Ha Ea). injection E as ->. lia.
    + intros b Hb. exact (Hs _ _ Ea Hb).
  - exists 0. split.
    + intros a Ha. apply (In_lookup _ _ _ Hn) in Ha. congruence.
    + intros b Hb. destruct (H2 _ Hb) as (q & [= ->] & Hq). lia.
Qed.

(** * The parsed schema *)

Lemma described_resolved num cns ens v t : describes num cns ens v t -> ty_named cns ens t.
Proof. induction 1; cbn [ty_named]; auto. Qed.

Lemma named_resolved g t : ty_named (map c_name (g_classes g)) (map e_name (g_embeds g)) t -> ty_resolved g t.
Proof.
  assert (F : forall {A} (f : A -> str) l n, In n (map f l) -> find (fun c => str_eqb (f c) n) l <> None).
  { intros A f l n H. apply in_map_iff in H. destruct H as (c & E & Hc). intros Hf. apply (find_none _ _ Hf) in Hc.
    apply str_eqb_neq in Hc. contradiction. }
  induction t; cbn [ty_named ty_resolved]; auto; intros H; apply F; exact H.
Qed.

Lemma describes_props_In num ordered cns ens ref l ps p : describes_properties num ordered cns ens ref l ps -> In p ps ->
  exists ms k m, In (s_ "properties", JObj ms) l /\ In (k, m) ms /\ describes_property num cns ens ref (k, m) p.
Proof.
  intros [[_ ->] | (ms & qs & Hms & Hperm & _ & HF)] Hp; [contradiction|].
  apply (Forall2_In_right _ _ _ HF) in Hp. destruct Hp as ((k, m) & Hin & Hd). exists ms, k, m. repeat split; auto.
  eapply Permutation_in; [symmetry; exact Hperm | exact Hin].
Qed.
Lemma describes_props_names num ordered cns ens ref l ps : json_wf (JObj l) -> describes_properties num ordered cns ens ref l ps ->
  NoDup (map p_name ps).
Proof.
  intros Hw [[_ ->] | (ms & qs & Hms & Hperm & _ & HF)]; [constructor|].
  assert (E : map p_name ps = keys qs).
  { clear - HF. induction HF as [|x p qs ps H HF IH]; [reflexivity|]. cbn [map keys]. destruct H as (l & _ & -> & _). now rewrite IH. }
  rewrite E. apply wf_obj in Hw. assert (Hm := proj2 Hw _ _ Hms). apply wf_obj in Hm.
  eapply Permutation_NoDup; [|exact (proj1 Hm)]. unfold keys. now apply Permutation_map.
Qed.

Lemma all_nth {A B} (xs : list A) (ys : list B) (P : nat -> A -> B -> Prop) : length xs = length ys ->
  (forall i y x, nth_error xs i = Some x -> nth_error ys i = Some y -> P i x y) ->
  forall y, In y ys -> exists i x, nth_error xs i = Some x /\ nth_error ys i = Some y /\ P i x y.
Proof.
  intros Hl H y Hy. apply In_nth_error in Hy. destruct Hy as (i & Hi).
  destruct (nth_error xs i) as [x|] eqn:Ex.
  - exists i, x. auto.
  - exfalso. apply nth_error_None in Ex. assert (i < length ys) by (apply nth_error_Some; congruence). lia.
Qed.

(** The composites of the schema and their definitions *)
Lemma composite_described num ordered ref v g r ps : json_wf v -> describes_graph num ordered ref v g -> composite g r ps ->
  exists l c, v = JObj l /\ composite_in l c /\ json_wf (JObj c) /\
    describes_properties num ordered (map c_name (g_classes g)) (map e_name (g_embeds g)) r c ps.
Proof.
  intros Hw0 (l & classes & embeds & -> & A1 & A2 & A3 & A4 & A5 & A6 & A7 & A8 & A9 & A10) Hc. exists l.
  assert (Hw := Hw0). apply wf_obj in Hw. destruct Hw as [Hn Hw].
  destruct Hc as [c Hc | e He |].
  - destruct (all_nth _ _ _ A6 A8 c Hc) as (i & d & Hd & _ & m & -> & B1 & B2 & B3 & B4 & B5 & B6).
    apply nth_error_In in Hd. exists m. split; [reflexivity|]. split; [eapply a_class; eauto|]. split; [exact (elements_wf l _ _ Hw0 A4 _ Hd)|].
    now rewrite B5.
  - destruct (all_nth _ _ _ A7 A9 e He) as (i & d & Hd & _ & m & -> & B1 & B2 & B3 & B4).
    apply nth_error_In in Hd. exists m. split; [reflexivity|]. split; [eapply an_embed; eauto|]. split; [exact (elements_wf l _ _ Hw0 A5 _ Hd)|].
    now rewrite B3.
  - exists l. split; [reflexivity|]. split; [constructor|]. split; [exact Hw0|]. now rewrite A3.
Qed.

Lemma composites_composite g ps : In ps (composites g) -> exists r, composite g r ps.
Proof.
  unfold composites. rewrite !in_app_iff, !in_map_iff. intros [(c & <- & Hc) | [(e & <- & He) | [<- | []]]]; eexists.
  - now apply composite_class.
  - now apply composite_embed.
  - apply composite_graph.
Qed.

Lemma parsed_resolved num ordered ref v g : json_wf v -> describes_graph num ordered ref v g -> resolved g.
Proof.
  intros Hw Hd ps p Hps Hp. destruct (composites_composite _ _ Hps) as (r & Hc).
  destruct (composite_described _ _ _ _ _ _ _ Hw Hd Hc) as (l & c & -> & _ & _ & Hps').
  destruct (describes_props_In _ _ _ _ _ _ _ _ Hps' Hp) as (ms & k & m & _ & _ & l' & _ & _ & _ & _ & _ & _ & Ht).
  apply named_resolved. eapply described_resolved; eauto.
Qed.

Lemma identifier_no_slash s : lax (identifier letter) s -> ~ In 47%N s.
Proof.
  assert (A : forall t, identifier letter t -> ~ In 47%N t).
  { intros t (c & r & -> & Hc & Hr) [E | Hin].
    - subst c. unfold letter, capital, small in Hc. lia.
    - destruct Hr as [Hr _]; specialize (Hr _ Hin). unfold word, letter, capital, small, digit in Hr. lia. }
  intros [H | (t & -> & H)]; [auto|]. rewrite in_app_iff. intros [Hin | [E | []]]; [now apply (A t) | discriminate].
Qed.

Section Accepted.
  Variables (re_ok : str -> bool) (ordered : bool).

  (** The properties of the composites of a document *)
  Lemma document_property l c ps k p : json_wf (JObj l) -> document re_ok ordered (JObj l) -> composite_in l c ->
    In (s_ "properties", JObj ps) c -> In (k, p) ps -> lax (identifier letter) k.
  Proof.
    intros Hw0 Hdoc Hc Hps Hp.
    inversion Hdoc as [l' n classes embeds cns ens Hkeys Horder Hname Hcap Hdesc Hcpp Hgo Hpy Hcl Hem Hcns Hens Hnd Hcok Heok Hprops Hpl El]; subst l'.
    assert (Hw := Hw0). apply wf_obj in Hw. destruct Hw as [Hn Hw].
    assert (A : exists reserved, maybe c "properties" (properties_ok re_ok ordered (n :: cns ++ ens) reserved)).
    { destruct Hc as [|cs c Hl Hin|es e Hl Hin]; [eauto | |].
      - assert (E := list_under_unique l _ _ _ Hn Hl Hcl). subst cs.
        destruct (Hcok _ Hin) as (c' & [= <-] & _ & _ & _ & _ & _ & H). eauto.
      - assert (E := list_under_unique l _ _ _ Hn Hl Hem). subst es.
        destruct (Heok _ Hin) as (c' & [= <-] & _ & _ & _ & H). eauto. }
    destruct A as (reserved & Hpr). destruct (Hpr _ Hps) as (ps' & [= <-] & H). exact (proj1 (H _ _ Hp)).
  Qed.

  Lemma parsed_refs_of num ref v g : json_wf v -> document re_ok ordered v -> describes_graph num ordered ref v g -> parsed_refs g.
  Proof.
    intros Hw Hdoc Hd. assert (Hd' := Hd).
    destruct Hd' as (l & classes & embeds & -> & A1 & A2 & A3 & A4 & A5 & A6 & A7 & A8 & A9 & A10). split; [|split].
    - intros i c Hi. destruct (nth_error classes i) as [d|] eqn:E.
      + destruct (A8 i c d E Hi) as (m & _ & _ & _ & _ & _ & B & _). now rewrite A3.
      + apply nth_error_None in E. assert (i < length (g_classes g)) by (apply nth_error_Some; congruence). lia.
    - intros i c Hi. destruct (nth_error embeds i) as [d|] eqn:E.
      + destruct (A9 i c d E Hi) as (m & _ & _ & _ & B & _). now rewrite A3.
      + apply nth_error_None in E. assert (i < length (g_embeds g)) by (apply nth_error_Some; congruence). lia.
    - intros r ps Hc. destruct (composite_described _ _ _ _ _ _ _ Hw Hd Hc) as (l' & c & [= <-] & Hci & Wc & Hps).
      split; [eapply describes_props_names; eauto|]. intros p Hp.
      destruct (describes_props_In _ _ _ _ _ _ _ _ Hps Hp) as (ms & k & m & Hms & Hin & m' & _ & -> & _).
      cbn [fst]. apply identifier_no_slash. exact (document_property l c ms k m Hw Hdoc Hci Hms Hin).
  Qed.

  Lemma accepted_document v ref s : json_wf v -> schema_from_mapping re_ok ordered v ref = Ok s ->
    document re_ok ordered v /\ schema_of re_ok ordered v ref = Ok s.
  Proof.
    intros Hw. unfold schema_from_mapping. destruct (validate re_ok ordered v ref) as [errs|] eqn:E; [|discriminate].
    cbn [bind]. destruct errs; [|discriminate]. intros H. split; [|exact H]. eapply validate_iff; eauto.
  Qed.
  Lemma accepted_describes v ref s : json_wf v -> schema_from_mapping re_ok ordered v ref = Ok s ->
    describes_schema toward_zero ordered ref v s.
  Proof.
    intros Hw H. destruct (accepted_document _ _ _ Hw H) as [Hd Hs]. eapply schema_of_inv; eauto.
    intros w z _ Ha Hz. now apply int_of_toward.
  Qed.
  Lemma accepted_exact v ref s : json_wf v -> integral_numbers v -> schema_from_mapping re_ok ordered v ref = Ok s ->
    describes_schema exact ordered ref v s.
  Proof.
    intros Hw Hi H. destruct (accepted_document _ _ _ Hw H) as [Hd Hs]. eapply schema_of_inv; eauto.
    intros w z Hp Ha Hz. destruct Ha as [(y & ->) | (f & ->)].
    - injection Hz as <-. exists y. split; [reflexivity|]. cbn. reflexivity.
    - eapply int_of_exact; eauto. apply Hi. exact Hp.
  Qed.
End Accepted.
