(** Proofs about the parsing of schemas. *)
From Coq Require Import String List Arith NArith ZArith QArith Bool Lia Permutation Floats.SpecFloat.
From Verif Require Import Base M_Naming M_Schema M_Dec M_Strftime M_Validate S_Conform P_Naming S_Validate P_Validate
  P_ValidateType P_ValidateDoc.
Import ListNotations.
Open Scope list_scope.
Local Open Scope nat_scope.

Definition float_finite (f : spec_float) : Prop := exists q, value (JFloat f) = Fin q.
Definition float_integral (f : spec_float) : Prop := exists z, same (value (JFloat f)) (Fin (inject_Z z)).

Lemma int_of_exact f z : int_of (JFloat f) = Ok z -> float_integral f -> exact (JFloat f) (Some z).
Proof.
  intros E (y & Hy). exists z. split; [reflexivity|]. destruct f as [s|s| |s m e]; cbn [int_of] in E; try discriminate.
  - injection E as <-. cbn. reflexivity.
  - injection E as <-. cbn [value same] in *. revert Hy.
    generalize (if s then Z.neg m else Z.pos m). intros n Hz. unfold power2 in *.
    destruct (Z.leb_spec 0 e) as [He | He].
    + rewrite inject_Z_mult. reflexivity.
    + assert (Hp : (0 < 2 ^ (- e))%Z) by (apply Z.pow_pos_nonneg; lia).
      assert (Hp' : ~ (inject_Z (2 ^ (- e)) == 0)%Q).
      { intros E. unfold Qeq in E. cbn in E. lia. }
      assert (E : (inject_Z n == inject_Z (y * 2 ^ (- e)))%Q).
      { rewrite inject_Z_mult, <- Hz. field. exact Hp'. }
      assert (E' : n = (y * 2 ^ (- e))%Z) by (unfold Qeq in E; cbn in E; lia).
      rewrite Hz. rewrite E'. rewrite Z.quot_mul by lia. reflexivity.
Qed.
Lemma int_of_toward v z : a_number v -> int_of v = Ok z -> toward_zero v (Some z).
Proof.
  intros [(y & ->) | (f & ->)] E.
  - injection E as <-. exists y, (inject_Z y). split; [reflexivity|]. split; [reflexivity|].
    rewrite <- (Zle_Qle y y), <- (Zlt_Qlt y (y + 1)), <- (Zlt_Qlt (y - 1) y).
    change 0%Q with (inject_Z 0). rewrite <- !Zle_Qle. lia.
  - destruct f as [s|s| |s m e]; cbn [int_of] in E; try discriminate; injection E as <-; cbn [value].
    + exists 0%Z, 0%Q. split; [reflexivity|]. split; [reflexivity|]. left. repeat split; discriminate.
    + eexists _, _. split; [reflexivity|]. split; [reflexivity|].
      generalize (if s then Z.neg m else Z.pos m). intros n. unfold power2.
      destruct (Z.leb_spec 0 e) as [He | He].
      * rewrite <- inject_Z_mult. set (y := (n * 2 ^ e)%Z).
        rewrite <- (Zlt_Qlt y (y + 1)), <- (Zlt_Qlt (y - 1) y).
        change 0%Q with (inject_Z 0). rewrite <- !Zle_Qle. lia.
      * assert (Hp : (0 < 2 ^ (- e))%Z) by (apply Z.pow_pos_nonneg; lia). set (p := (2 ^ (- e))%Z) in *.
        assert (Hpq : (0 < inject_Z p)%Q) by (change 0%Q with (inject_Z 0); rewrite <- Zlt_Qlt; exact Hp).
        assert (Hle : forall a b, (a * p <= b)%Z -> (inject_Z a <= inject_Z b * / inject_Z p)%Q).
        { intros a b H. apply Qle_shift_div_l; [exact Hpq|]. rewrite <- inject_Z_mult, <- Zle_Qle. exact H. }
        assert (Hge : forall a b, (b <= a * p)%Z -> (inject_Z b * / inject_Z p <= inject_Z a)%Q).
        { intros a b H. apply Qle_shift_div_r; [exact Hpq|]. rewrite <- inject_Z_mult, <- Zle_Qle. exact H. }
        assert (Hlt : forall a b, (a * p < b)%Z -> (inject_Z a < inject_Z b * / inject_Z p)%Q).
        { intros a b H. apply Qlt_shift_div_l; [exact Hpq|]. rewrite <- inject_Z_mult, <- Zlt_Qlt. exact H. }
        assert (Hgt : forall a b, (b < a * p)%Z -> (inject_Z b * / inject_Z p < inject_Z a)%Q).
        { intros a b H. apply Qlt_shift_div_r; [exact Hpq|]. rewrite <- inject_Z_mult, <- Zlt_Qlt. exact H. }
        assert (Hq := Z.quot_rem' n p). destruct (Z.le_ge_cases 0 n) as [Hn | Hn].
        -- assert (Hr := Z.rem_bound_pos n p Hn Hp). left. repeat split; [apply (Hle 0%Z); lia | apply Hle | apply Hgt]; nia.
        -- assert (Hr := Z.rem_bound_pos_neg n p Hp Hn). right. repeat split; [apply (Hge 0%Z); lia | apply Hge | apply Hlt]; nia.
Qed.
Lemma int_of_ok f : float_finite f -> exists z, int_of (JFloat f) = Ok z.
Proof.
  intros (q & Hq). destruct f as [s|s| |s m e]; cbn [value] in Hq; try discriminate; [| destruct s; discriminate |]; eexists; reflexivity.
Qed.

Section Members.
  Variable num : jval -> option Z -> Prop.
  Context (l : list (str * jval)) (Hn : NoDup (keys l)).

  Lemma stated_of {A} k (P : jval -> A -> Prop) d a :
    (match lookup (s_ k) l with Some v => P v a | None => a = d end) -> stated l k P d a.
  Proof.
    unfold stated. destruct (lookup (s_ k) l) as [v|] eqn:E; intros H.
    - left. exists v. split; auto. now apply lookup_In.
    - right. split; auto. now apply no_member_lookup.
  Qed.
  Lemma text_or_ok d k : maybe l k (a_text any) -> exists s, text_or d (s_ k) l = Ok s /\ stated l k is_text d s.
  Proof.
    rewrite (maybe_lookup l Hn). unfold text_or. intros H.
    destruct (lookup (s_ k) l) as [v|] eqn:E.
    - destruct H as (s & -> & _). exists s. split; [reflexivity|]. apply stated_of. rewrite E. reflexivity.
    - exists d. split; [reflexivity|]. apply stated_of. rewrite E. reflexivity.
  Qed.
  Lemma flag_ok k : maybe l k a_boolean -> stated l k is_flag false (flag (s_ k) l).
  Proof.
    rewrite (maybe_lookup l Hn). unfold flag. intros H. apply stated_of.
    destruct (lookup (s_ k) l) as [v|]; [|reflexivity]. destruct H as (b & ->). reflexivity.
  Qed.
  Lemma compile_ok re_ok k : maybe l k (a_text (fun p => re_ok p = true)) ->
    exists o, optional (compile re_ok) (s_ k) l = Ok o /\ stated l k is_optional_text None o.
  Proof.
    rewrite (maybe_lookup l Hn). unfold optional. intros H.
    destruct (lookup (s_ k) l) as [v|] eqn:E.
    - destruct H as (s & -> & Hs). exists (Some s). unfold compile. cbn [text bind]. rewrite Hs. split; [reflexivity|].
      apply stated_of. rewrite E. exists s. auto.
    - exists None. split; [reflexivity|]. apply stated_of. now rewrite E.
  Qed.
  Definition numbers_read : Prop := forall k v z, In (k, v) l -> a_number v -> int_of v = Ok z -> num v (Some z).
  Lemma int_ok k : numbers_read -> maybe l k a_number -> (forall k f, In (k, JFloat f) l -> float_finite f) ->
    exists o, optional int_of (s_ k) l = Ok o /\ stated l k num None o.
  Proof.
    rewrite (maybe_lookup l Hn). unfold optional. intros Hr H Hf.
    destruct (lookup (s_ k) l) as [v|] eqn:E.
    - assert (Ez : exists z, int_of v = Ok z).
      { destruct H as [(z & ->) | (f & ->)]; [eexists; reflexivity|]. apply int_of_ok. apply (Hf (s_ k)). now apply lookup_In. }
      destruct Ez as (z & Ez). exists (Some z). rewrite Ez. split; [reflexivity|]. apply stated_of. rewrite E.
      apply (Hr (s_ k)); auto. now apply lookup_In.
    - exists None. split; [reflexivity|]. apply stated_of. now rewrite E.
  Qed.
  Lemma bounds_ok : numbers_read -> maybe l "minimum" a_number -> maybe l "maximum" a_number ->
    maybe l "exclusive_minimum" a_boolean -> maybe l "exclusive_maximum" a_boolean ->
    (forall k f, In (k, JFloat f) l -> float_finite f) ->
    exists b, bounds_of l = Ok b /\ bounds_described num l b.
  Proof.
    intros Hr H1 H2 H3 H4 Hf. unfold bounds_of.
    destruct (int_ok "minimum" Hr H1 Hf) as (mn & -> & Hmn). cbn [bind].
    destruct (int_ok "maximum" Hr H2 Hf) as (mx & -> & Hmx). cbn [bind].
    eexists. split; [reflexivity|]. unfold bounds_described. cbn [b_min b_exmin b_max b_exmax].
    repeat split; [exact Hmn | now apply flag_ok | exact Hmx | now apply flag_ok].
  Qed.
  Lemma text_at_ok k s : In (s_ k, JStr s) l -> text_at (s_ k) l = Ok s.
  Proof. intros H. unfold text_at, M_Validate.get. apply (In_lookup _ _ _ Hn) in H. rewrite H. reflexivity. Qed.
  Lemma get_ok k v : In (s_ k, v) l -> M_Validate.get (s_ k) l = Ok v.
  Proof. intros H. unfold M_Validate.get. apply (In_lookup _ _ _ Hn) in H. now rewrite H. Qed.
End Members.

Lemma part_member l k v w : In (k, v) l -> part w v -> part w (JObj l).
Proof. apply part_object. Qed.

(** parse.py:122-188, by the type *)
Definition parse_by re_ok classes embeds (type : str) (l : list (str * jval)) (values : res ty) : res ty :=
  if str_eqb type (s_ "boolean") then Ok TBool
  else if str_eqb type (s_ "integer") then do b <- bounds_of l; Ok (TInt b)
  else if str_eqb type (s_ "float") then do b <- bounds_of l; Ok (TFloat b)
  else if str_eqb type (s_ "string") then do p <- optional (compile re_ok) (s_ "pattern") l; Ok (TStr p)
  else if str_eqb type (s_ "path") then do p <- optional (compile re_ok) (s_ "pattern") l; Ok (TPath p)
  else if str_eqb type (s_ "date") then do f <- text_or (s_ "%Y-%m-%d") (s_ "format") l; Ok (TDate f)
  else if str_eqb type (s_ "time") then do f <- text_or (s_ "%H:%M:%S") (s_ "format") l; Ok (TTime f)
  else if str_eqb type (s_ "datetime") then
    do f <- text_or (s_ "%Y-%m-%dT%H:%M:%SZ") (s_ "format") l; Ok (TDatetime f)
  else if str_eqb type (s_ "time_zone") then Ok TTimeZone
  else if str_eqb type (s_ "duration") then Ok TDuration
  else if str_eqb type (s_ "array") then
    do vs <- values;
    do mn <- optional int_of (s_ "minimum_size") l;
    do mx <- optional int_of (s_ "maximum_size") l;
    Ok (TArray vs mn mx)
  else if str_eqb type (s_ "map") then do vs <- values; Ok (TMap vs)
  else if mem type classes then Ok (TClass type)
  else if mem type embeds then Ok (TEmbed type)
  else Raise NotImplementedError.

Lemma type_of_eq re_ok classes embeds l :
  type_of re_ok classes embeds (JObj l) =
  do t <- M_Validate.get (s_ "type") l;
  do type <- text t;
  parse_by re_ok classes embeds type l
    (match lookup (s_ "values") l with Some x => type_of re_ok classes embeds x | None => Raise KeyError end).
Proof.
  cbn [type_of]. destruct (M_Validate.get _ l) as [v|]; cbn [bind]; [|reflexivity].
  destruct (text v); cbn [bind]; [|reflexivity]. unfold parse_by. rewrite on_key_lookup. reflexivity.
Qed.

Section Types.
  Variable num : jval -> option Z -> Prop.
  Variables (re_ok : str -> bool) (g : str) (cns ens : list str).
  Hypothesis names_ok : forall n, In n (g :: cns ++ ens) -> ~ In n NONCOMPOSITE.
  Let names := g :: cns ++ ens.

  Lemma parse_composite n l values : In n (cns ++ ens) ->
    exists t, parse_by re_ok cns ens n l values = Ok t /\
      ((t = TClass n /\ In n cns) \/ (t = TEmbed n /\ In n ens)).
  Proof.
    intros Hin. unfold parse_by.
    assert (Hne : forall t, In (s_ t) NONCOMPOSITE -> str_eqb n (s_ t) = false).
    { intros t H. apply str_eqb_neq. intros ->. apply (names_ok (s_ t)); [now right | exact H]. }
    rewrite !Hne by (rewrite NONCOMPOSITE_eq; apply in_map; cbn; tauto).
    destruct (mem n cns) eqn:Ec.
    - eexists. split; [reflexivity|]. left. split; auto. now apply mem_In.
    - apply mem_not_In in Ec. assert (He : In n ens) by (apply in_app_iff in Hin; tauto).
      assert (Em : mem n ens = true) by now apply mem_In. rewrite Em. eexists. split; [reflexivity|]. right. auto.
  Qed.

  Lemma type_of_ok v : forall top, json_wf v -> type_ok re_ok names top v -> finite_numbers v ->
    (forall l, part (JObj l) v -> ~ In (s_ "type", JStr g) l) ->
    (forall w z, part w v -> a_number w -> int_of w = Ok z -> num w (Some z)) ->
    exists t, type_of re_ok cns ens v = Ok t /\ describes num cns ens v t.
  Proof.
    induction v as [| | | | |l IH|l IH] using jval_ind'; intros top Hw Hok Hfin Hg Hnum; try (inversion Hok; fail).
    apply wf_obj in Hw. destruct Hw as [Hn Hw]. rewrite type_of_eq.
    set (values := match lookup (s_ "values") l with Some _ => _ | None => _ end).
    assert (Hv : forall x, In (s_ "values", x) l -> type_ok re_ok names false x ->
      exists t, values = Ok t /\ describes num cns ens x t).
    { intros x Hx Hxok. rewrite Forall_forall in IH.
      destruct (IH (s_ "values", x) Hx false) as (t & Et & Hd); cbn [snd]; eauto.
      - intros f Hf. apply Hfin. eapply part_object; eauto.
      - intros m Hm. apply Hg. eapply part_object; eauto.
      - intros w z H. apply Hnum. eapply part_object; eauto.
      - exists t. subst values. rewrite (In_lookup _ _ _ Hn Hx). split; [exact Et | exact Hd]. }
    assert (Hff : forall k f, In (k, JFloat f) l -> float_finite f).
    { intros k f Hf. apply Hfin. eapply part_object; [exact Hf | constructor]. }
    assert (Hr : numbers_read num l).
    { intros k w z H. apply Hnum. eapply part_object; [exact H | constructor]. }
    assert (Ht : forall t, In (s_ "type", JStr t) l ->
      (do t <- M_Validate.get (s_ "type") l; do type <- text t; parse_by re_ok cns ens type l values) = parse_by re_ok cns ens t l values).
    { intros t H. rewrite (get_ok l Hn _ _ H). reflexivity. }
    inversion Hok as [t l' H1 H2 H3 H4 El | t l' H1 H2 H3 H4 H5 H6 H7 El | t l' H1 H2 H3 H4 H5 El |
        t l' H1 H2 H3 H4 H5 El | l' v H1 H2 H3 H4 H5 H6 H7 H8 El | l' v H1 H2 H3 H4 H5 El | n l' H1 H2 H3 El]; subst l'.
    - rewrite (Ht _ H2). cbn [In] in H1. repeat destruct H1 as [<- | H1]; [.. | contradiction];
        (eexists; split; [reflexivity|]; constructor; exact H2).
    - rewrite (Ht _ H2).
      assert (A : maybe l "minimum" a_number /\ maybe l "maximum" a_number).
      { destruct H1 as [(_ & A & B) | (_ & A & B)]; [|auto].
        split; intros w Hw'; [destruct (A w Hw') as (z & ->) | destruct (B w Hw') as (z & ->)]; left; eauto. }
      destruct (bounds_ok num l Hn Hr (proj1 A) (proj2 A) H5 H6 Hff) as (b & Eb & Hb).
      destruct H1 as [(-> & _ & _) | (-> & _ & _)].
      + exists (TInt b). split; [change ((do b <- bounds_of l; Ok (TInt b)) = Ok (TInt b)); now rewrite Eb|].
        constructor; [exact H2 | exact Hb].
      + exists (TFloat b). split; [change ((do b <- bounds_of l; Ok (TFloat b)) = Ok (TFloat b)); now rewrite Eb|].
        constructor; [exact H2 | exact Hb].
    - rewrite (Ht _ H2). destruct (compile_ok l Hn re_ok "pattern" H5) as (p & Ep & Hp).
      cbn [In] in H1. repeat destruct H1 as [<- | H1]; [.. | contradiction].
      + exists (TStr p). split; [|constructor; auto].
        change ((do p <- optional (compile re_ok) (s_ "pattern") l; Ok (TStr p)) = Ok (TStr p)). now rewrite Ep.
      + exists (TPath p). split; [|constructor; auto].
        change ((do p <- optional (compile re_ok) (s_ "pattern") l; Ok (TPath p)) = Ok (TPath p)). now rewrite Ep.
    - rewrite (Ht _ H1). assert (H6 : maybe l "format" (a_text any)).
      { intros v Hv'. destruct (H4 v Hv') as (p & -> & _). exists p. split; [reflexivity | exact I]. }
      cbn [In] in H5. repeat destruct H5 as [<- | H5]; [.. | contradiction].
      + destruct (text_or_ok l Hn (s_ "%Y-%m-%d") "format" H6) as (f & Ef & Hf). exists (TDate f). split; [|constructor; auto].
        change ((do f <- text_or (s_ "%Y-%m-%d") (s_ "format") l; Ok (TDate f)) = Ok (TDate f)). now rewrite Ef.
      + destruct (text_or_ok l Hn (s_ "%H:%M:%S") "format" H6) as (f & Ef & Hf). exists (TTime f). split; [|constructor; auto].
        change ((do f <- text_or (s_ "%H:%M:%S") (s_ "format") l; Ok (TTime f)) = Ok (TTime f)). now rewrite Ef.
      + destruct (text_or_ok l Hn (s_ "%Y-%m-%dT%H:%M:%SZ") "format" H6) as (f & Ef & Hf). exists (TDatetime f). split; [|constructor; auto].
        change ((do f <- text_or (s_ "%Y-%m-%dT%H:%M:%SZ") (s_ "format") l; Ok (TDatetime f)) = Ok (TDatetime f)). now rewrite Ef.
    - rewrite (Ht _ H1). destruct (Hv _ H7 H8) as (t & Et & Hd).
      assert (Hs : forall k, maybe l k a_size -> maybe l k a_number).
      { intros k H w Hw'. destruct (H w Hw') as (z & -> & _). left. eauto. }
      destruct (int_ok num l Hn "minimum_size" Hr (Hs _ H4) Hff) as (mn & Emn & Hmn).
      destruct (int_ok num l Hn "maximum_size" Hr (Hs _ H5) Hff) as (mx & Emx & Hmx).
      exists (TArray t mn mx). split.
      + change ((do vs <- values; do mn <- optional int_of (s_ "minimum_size") l; do mx <- optional int_of (s_ "maximum_size") l;
                 Ok (TArray vs mn mx)) = Ok (TArray t mn mx)). rewrite Et. cbn [bind]. rewrite Emn. cbn [bind]. now rewrite Emx.
      + eapply d_array; eauto.
    - rewrite (Ht _ H1). destruct (Hv _ H4 H5) as (t & Et & Hd).
      exists (TMap t). split; [change ((do vs <- values; Ok (TMap vs)) = Ok (TMap t)); now rewrite Et|].
      eapply d_map; eauto.
    - rewrite (Ht _ H2). destruct H1 as [<- | H1]; [exfalso; exact (Hg l (part_itself _) H2)|].
      destruct (parse_composite n l values H1) as (t & Et & Hd). exists t. split; [exact Et|].
      destruct Hd as [[-> Hc] | [-> He]]; [now apply d_class | now apply d_embed].
  Qed.

  (** The composites named by a parsed type *)
  Fixpoint ty_named (t : ty) : Prop :=
    match t with
    | TArray t' _ _ | TMap t' => ty_named t'
    | TClass n => In n cns
    | TEmbed n => In n ens
    | _ => True
    end.
  Lemma type_of_named v : forall t, type_of re_ok cns ens v = Ok t -> ty_named t.
  Proof.
    induction v as [| | | | |l IH|l IH] using jval_ind'; intros t; try discriminate. rewrite type_of_eq.
    destruct (M_Validate.get _ l) as [w|]; [|discriminate]. cbn [bind]. destruct (text w) as [type|]; [|discriminate]. cbn [bind].
    set (values := match lookup (s_ "values") l with Some _ => _ | None => _ end).
    assert (Hv : forall u, values = Ok u -> ty_named u).
    { subst values. destruct (lookup (s_ "values") l) as [x|] eqn:E; [|discriminate]. intros u Hu.
      rewrite Forall_forall in IH. eapply (IH (s_ "values", x)); eauto. now apply lookup_In. }
    unfold parse_by.
    repeat match goal with
      | |- (if ?b then _ else _) = _ -> _ => destruct b eqn:?
      | |- Ok _ = Ok _ -> _ => intros [= <-]; cbn [ty_named]; auto
      | |- Raise _ = Ok _ -> _ => discriminate
      | |- bind values _ = _ -> _ => destruct values as [u|] eqn:Eu; [|discriminate]; cbn [bind]
      | |- bind ?m _ = _ -> _ => destruct m; [|discriminate]; cbn [bind]
      end; now apply mem_In.
  Qed.
End Types.

(** * The whole schema *)

Lemma mapM_exists {A B} (f : A -> res B) (R : A -> B -> Prop) l :
  (forall x, In x l -> exists y, f x = Ok y /\ R x y) -> exists ys, mapM f l = Ok ys /\ Forall2 R l ys.
Proof.
  induction l as [|x l IH]; intros H.
  - exists []. split; [reflexivity | constructor].
  - destruct (H x (or_introl eq_refl)) as (y & Ey & Hy). destruct IH as (ys & Eys & Hys); [intros z Hz; apply H; now right|].
    exists (y :: ys). cbn [mapM]. rewrite Ey. cbn [bind]. rewrite Eys. split; [reflexivity | now constructor].
Qed.
Lemma enumerate_Forall2 {A B} (R : nat * A -> B -> Prop) l ys : Forall2 R (enumerate l) ys ->
  length l = length ys /\ forall i x y, nth_error l i = Some x -> nth_error ys i = Some y -> R (i, x) y.
Proof.
  unfold enumerate. assert (H : forall k, Forall2 R (number_from k l) ys ->
    length l = length ys /\ forall i x y, nth_error l i = Some x -> nth_error ys i = Some y -> R (k + i, x) y).
  { revert ys. induction l as [|a l IH]; intros ys k H; cbn [number_from] in H; inversion H as [|? b ? bs Hb Hbs]; subst.
    - split; [reflexivity|]. intros [|i] x y; discriminate.
    - destruct (IH _ _ Hbs) as [IH1 IH2]. split; [cbn; congruence|]. intros [|i] x y; cbn [nth_error].
      + intros [= <-] [= <-]. now rewrite Nat.add_0_r.
      + intros Hx Hy. rewrite Nat.add_succ_r. exact (IH2 i x y Hx Hy). }
  intros H0. destruct (H 0 H0) as [H1 H2]. split; [exact H1|]. intros i x y Hx Hy. exact (H2 i x y Hx Hy).
Qed.

Lemma choose {A B} (R : A -> B -> Prop) l :
  (forall x, In x l -> exists y, R x y) -> exists ys, Forall2 R l ys.
Proof.
  induction l as [|x l IH]; intros H; [exists []; constructor|]. destruct (H x (or_introl eq_refl)) as (y & Hy).
  destruct IH as (ys & Hys); [intros z Hz; apply H; now right|]. exists (y :: ys). now constructor.
Qed.
Lemma Forall2_In_right {A B} (R : A -> B -> Prop) l ys : Forall2 R l ys -> forall y, In y ys -> exists x, In x l /\ R x y.
Proof.
  induction 1 as [|x y l ys H _ IH]; intros z Hz; [contradiction|]. destruct Hz as [<- | Hz]; [exists x; cbn; auto|].
  destruct (IH z Hz) as (w & Hw & Hr). exists w. cbn. auto.
Qed.
Lemma Forall2_weaken {A B} (R S : A -> B -> Prop) l ys : (forall x y, R x y -> S x y) -> Forall2 R l ys -> Forall2 S l ys.
Proof. intros H. induction 1; constructor; auto. Qed.
Lemma Forall2_map_right {A B C} (R : A -> C -> Prop) (f : B -> C) l ys :
  Forall2 (fun x y => R x (f y)) l ys -> Forall2 R l (map f ys).
Proof. induction 1; constructor; auto. Qed.
Lemma Forall2_map_left {A B C} (R : C -> B -> Prop) (f : A -> C) l ys :
  Forall2 (fun x y => R (f x) y) l ys -> Forall2 R (map f l) ys.
Proof. induction 1; constructor; auto. Qed.
Lemma enumerate_snd {A} (l : list A) : map snd (enumerate l) = l.
Proof.
  unfold enumerate. generalize 0. induction l as [|x l IH]; intros k; cbn [number_from map snd]; [reflexivity|]. now rewrite IH.
Qed.
Lemma NoDup_app_right {A} (a b : list A) : NoDup (a ++ b) -> NoDup b.
Proof. induction a as [|x a IH]; cbn [app]; [auto|]. intros H. apply NoDup_cons_iff in H. tauto. Qed.

Lemma put_class_fresh c l : ~ In (c_name c) (map c_name l) -> put_class c l = l ++ [c].
Proof.
  induction l as [|d l IH]; cbn [put_class map In app]; intros H; [reflexivity|].
  replace (str_eqb (c_name c) (c_name d)) with false; [rewrite IH; tauto|].
  symmetry. apply str_eqb_neq. intros E. apply H. now left.
Qed.
Lemma put_embed_fresh c l : ~ In (e_name c) (map e_name l) -> put_embed c l = l ++ [c].
Proof.
  induction l as [|d l IH]; cbn [put_embed map In app]; intros H; [reflexivity|].
  replace (str_eqb (e_name c) (e_name d)) with false; [rewrite IH; tauto|].
  symmetry. apply str_eqb_neq. intros E. apply H. now left.
Qed.
Lemma NoDup_middle {A} (a : list A) x b : NoDup (a ++ x :: b) -> ~ In x a /\ NoDup ((a ++ [x]) ++ b).
Proof.
  intros H. split.
  - apply NoDup_remove in H. intros Hx. apply (proj2 H). apply in_app_iff. now left.
  - rewrite <- app_assoc. exact H.
Qed.
Lemma puts_class cs : forall acc, NoDup (map c_name (acc ++ cs)) ->
  fold_left (fun acc c => put_class c acc) cs acc = acc ++ cs.
Proof.
  induction cs as [|c cs IH]; intros acc H; cbn [fold_left]; [now rewrite app_nil_r|].
  rewrite map_app in H. cbn [map] in H. apply NoDup_middle in H. destruct H as [H1 H2].
  rewrite put_class_fresh by exact H1. rewrite IH; [now rewrite <- app_assoc|]. rewrite !map_app. exact H2.
Qed.
Lemma puts_embed cs : forall acc, NoDup (map e_name (acc ++ cs)) ->
  fold_left (fun acc c => put_embed c acc) cs acc = acc ++ cs.
Proof.
  induction cs as [|c cs IH]; intros acc H; cbn [fold_left]; [now rewrite app_nil_r|].
  rewrite map_app in H. cbn [map] in H. apply NoDup_middle in H. destruct H as [H1 H2].
  rewrite put_embed_fresh by exact H1. rewrite IH; [now rewrite <- app_assoc|]. rewrite !map_app. exact H2.
Qed.

Definition with_cprops (c : cls) (ps : list prop) : cls :=
  Cls (c_name c) (c_plural c) (c_description c) (c_ref c) (c_id_pattern c) ps.
Definition with_eprops (e : embed) (ps : list prop) : embed := Embed (e_name e) (e_description e) (e_ref e) ps.

Lemma set_class_fresh n ps l : ~ In n (map c_name l) -> set_class_props n ps l = l.
Proof.
  intros H. unfold set_class_props. rewrite <- (map_id l) at 2. apply map_ext_in. intros c Hc.
  destruct (str_eqb n (c_name c)) eqn:E; [|reflexivity]. apply str_eqb_eq in E. subst n. exfalso. apply H. now apply in_map.
Qed.
Lemma set_embed_fresh n ps l : ~ In n (map e_name l) -> set_embed_props n ps l = l.
Proof.
  intros H. unfold set_embed_props. rewrite <- (map_id l) at 2. apply map_ext_in. intros c Hc.
  destruct (str_eqb n (e_name c)) eqn:E; [|reflexivity]. apply str_eqb_eq in E. subst n. exfalso. apply H. now apply in_map.
Qed.
Lemma sets_class cps cs : Forall2 (fun (np : str * list prop) c => fst np = c_name c) cps cs -> forall pre,
  NoDup (map c_name (pre ++ cs)) ->
  exists cs', fold_left (fun acc np => set_class_props (fst np) (snd np) acc) cps (pre ++ cs) = pre ++ cs' /\
    map c_name cs' = map c_name cs /\ length cs' = length cps /\
    forall i np c, nth_error cps i = Some np -> nth_error cs i = Some c -> nth_error cs' i = Some (with_cprops c (snd np)).
Proof.
  induction 1 as [|np c cps cs Hnp H IH]; intros pre Hd; cbn [fold_left].
  - exists []. repeat split. intros [|i] np c; discriminate.
  - rewrite map_app in Hd. cbn [map] in Hd. destruct (NoDup_middle _ _ _ Hd) as [H1 H2].
    assert (H3 : ~ In (c_name c) (map c_name cs)).
    { apply NoDup_remove in Hd. intros Hc. apply (proj2 Hd). apply in_app_iff. now right. }
    assert (E : set_class_props (fst np) (snd np) (pre ++ c :: cs) = (pre ++ [with_cprops c (snd np)]) ++ cs).
    { unfold set_class_props. rewrite map_app. cbn [map].
      change (set_class_props (fst np) (snd np) pre ++ (if str_eqb (fst np) (c_name c) then with_cprops c (snd np) else c)
               :: set_class_props (fst np) (snd np) cs = (pre ++ [with_cprops c (snd np)]) ++ cs).
      rewrite Hnp, str_eqb_refl, !set_class_fresh by assumption. now rewrite <- app_assoc. }
    rewrite E. destruct (IH (pre ++ [with_cprops c (snd np)])) as (cs' & E' & En & El & Hcs').
    { rewrite !map_app. exact H2. }
    exists (with_cprops c (snd np) :: cs'). rewrite E', <- app_assoc. split; [reflexivity|].
    split; [cbn [map]; now rewrite En|]. split; [cbn; congruence|].
    intros [|i] np' c'; cbn [nth_error]; [intros [= <-] [= <-]; reflexivity | apply Hcs'].
Qed.
Lemma sets_embed cps cs : Forall2 (fun (np : str * list prop) c => fst np = e_name c) cps cs -> forall pre,
  NoDup (map e_name (pre ++ cs)) ->
  exists cs', fold_left (fun acc np => set_embed_props (fst np) (snd np) acc) cps (pre ++ cs) = pre ++ cs' /\
    map e_name cs' = map e_name cs /\ length cs' = length cps /\
    forall i np c, nth_error cps i = Some np -> nth_error cs i = Some c -> nth_error cs' i = Some (with_eprops c (snd np)).
Proof.
  induction 1 as [|np c cps cs Hnp H IH]; intros pre Hd; cbn [fold_left].
  - exists []. repeat split. intros [|i] np c; discriminate.
  - rewrite map_app in Hd. cbn [map] in Hd. destruct (NoDup_middle _ _ _ Hd) as [H1 H2].
    assert (H3 : ~ In (e_name c) (map e_name cs)).
    { apply NoDup_remove in Hd. intros Hc. apply (proj2 Hd). apply in_app_iff. now right. }
    assert (E : set_embed_props (fst np) (snd np) (pre ++ c :: cs) = (pre ++ [with_eprops c (snd np)]) ++ cs).
    { unfold set_embed_props. rewrite map_app. cbn [map].
      change (set_embed_props (fst np) (snd np) pre ++ (if str_eqb (fst np) (e_name c) then with_eprops c (snd np) else c)
               :: set_embed_props (fst np) (snd np) cs = (pre ++ [with_eprops c (snd np)]) ++ cs).
      rewrite Hnp, str_eqb_refl, !set_embed_fresh by assumption. now rewrite <- app_assoc. }
    rewrite E. destruct (IH (pre ++ [with_eprops c (snd np)])) as (cs' & E' & En & El & Hcs').
    { rewrite !map_app. exact H2. }
    exists (with_eprops c (snd np) :: cs'). rewrite E', <- app_assoc. split; [reflexivity|].
    split; [cbn [map]; now rewrite En|]. split; [cbn; congruence|].
    intros [|i] np' c'; cbn [nth_error]; [intros [= <-] [= <-]; reflexivity | apply Hcs'].
Qed.

Section Whole.
  Variable num : jval -> option Z -> Prop.
  Variables (re_ok : str -> bool) (ordered : bool).

  Lemma cpp_described v : json_wf v -> cpp_ok v -> exists c, cpp_of v = Ok c /\ exists m, v = JObj m /\ describes_cpp m c.
  Proof.
    intros Hw (l & -> & _ & (a & Ha & a' & -> & _) & (b & Hb & b' & -> & _) & (c & Hc & c' & -> & _) & (d & Hd & d' & -> & _) & He).
    apply wf_obj in Hw. destruct Hw as [Hn Hw].
    destruct (text_or_ok l Hn (s_ "  ") "indention") as (e & Ee & He').
    { intros x Hx. destruct (He x Hx) as (t & -> & _). exists t. split; [reflexivity | exact I]. }
    unfold cpp_of. cbn [fields bind].
    rewrite (text_at_ok l Hn _ _ Ha). cbn [bind]. rewrite (text_at_ok l Hn _ _ Hb). cbn [bind].
    rewrite (text_at_ok l Hn _ _ Hc). cbn [bind]. rewrite (text_at_ok l Hn _ _ Hd). cbn [bind]. rewrite Ee. cbn [bind].
    eexists. split; [reflexivity|]. exists l. split; [reflexivity|]. repeat split; assumption.
  Qed.
  Lemma go_described v : json_wf v -> go_ok v -> exists c, go_of v = Ok c /\ exists m, v = JObj m /\ describes_go m c.
  Proof.
    intros Hw (l & -> & _ & (a & Ha & a' & -> & _)). apply wf_obj in Hw. destruct Hw as [Hn Hw].
    unfold go_of. cbn [fields bind]. rewrite (text_at_ok l Hn _ _ Ha). cbn [bind].
    eexists. split; [reflexivity|]. exists l. split; [reflexivity|]. exact Ha.
  Qed.
  Lemma py_described v : json_wf v -> py_ok v -> exists c, py_of v = Ok c /\ exists m, v = JObj m /\ describes_py m c.
  Proof.
    intros Hw (l & -> & _ & (a & Ha & a' & -> & _) & (b & Hb & b' & -> & _) & (c & Hc & c' & -> & _) & He).
    apply wf_obj in Hw. destruct Hw as [Hn Hw].
    destruct (text_or_ok l Hn (s_ "    ") "indention") as (e & Ee & He').
    { intros x Hx. destruct (He x Hx) as (t & -> & _). exists t. split; [reflexivity | exact I]. }
    unfold py_of. cbn [fields bind].
    rewrite (text_at_ok l Hn _ _ Ha). cbn [bind]. rewrite (text_at_ok l Hn _ _ Hb). cbn [bind].
    rewrite (text_at_ok l Hn _ _ Hc). cbn [bind]. rewrite Ee. cbn [bind].
    eexists. split; [reflexivity|]. exists l. split; [reflexivity|]. repeat split; assumption.
  Qed.
  Lemma settings_ok {A} (f : jval -> res A) (ok : jval -> Prop) P l k : json_wf (JObj l) ->
    (forall v, json_wf v -> ok v -> exists c, f v = Ok c /\ exists m, v = JObj m /\ P m c) ->
    maybe l k ok -> exists o, optional f (s_ k) l = Ok o /\ describes_settings l k P o.
  Proof.
    intros Hw Hf H. apply wf_obj in Hw. destruct Hw as [Hn Hw]. rewrite (maybe_lookup l Hn) in H. unfold optional.
    destruct (lookup (s_ k) l) as [v|] eqn:E.
    - assert (Hl := lookup_In _ _ _ E). destruct (Hf v) as (c & Ec & m & Em & Hc); eauto.
      exists (Some c). rewrite Ec. split; [reflexivity|]. left. exists v. split; [exact Hl|]. exists m, c. auto.
    - exists None. split; [reflexivity|]. right. split; [now apply no_member_lookup | reflexivity].
  Qed.

  Section Composites.
    Variables (g : str) (cns ens : list str).
    Hypothesis names_ok : forall n, In n (g :: cns ++ ens) -> ~ In n NONCOMPOSITE.
    Let names := g :: cns ++ ens.
    (** The parts of the document *)
    Definition fine (v : jval) : Prop :=
      json_wf v /\ finite_numbers v /\ (forall l, part (JObj l) v -> ~ In (s_ "type", JStr g) l) /\
      (forall w z, part w v -> a_number w -> int_of w = Ok z -> num w (Some z)).
    Lemma fine_member l k v : fine (JObj l) -> In (k, v) l -> fine v.
    Proof.
      intros (H1 & H2 & H3 & H4) Hin. split; [apply wf_obj in H1; apply (proj2 H1 _ _ Hin)|].
      split; [intros f Hf; apply H2; eapply part_object; eauto|].
      split; [intros m Hm; apply H3; eapply part_object; eauto|].
      intros w z Hw. apply H4. eapply part_object; eauto.
    Qed.
    Lemma fine_element l v : fine (JArr l) -> In v l -> fine v.
    Proof.
      intros (H1 & H2 & H3 & H4) Hin. split.
      { inversion H1; subst; auto. }
      split; [intros f Hf; apply H2; eapply part_array; eauto|].
      split; [intros m Hm; apply H3; eapply part_array; eauto|].
      intros w z Hw. apply H4. eapply part_array; eauto.
    Qed.

    Lemma own_properties_ok ref l reserved : fine (JObj l) ->
      maybe l "properties" (properties_ok re_ok ordered names reserved) ->
      exists ps, own_properties re_ok ordered cns ens ref l = Ok ps /\ describes_properties num ordered cns ens ref l ps.
    Proof.
      intros Hfine H. assert (Hw := proj1 Hfine). apply wf_obj in Hw. destruct Hw as [Hn Hw].
      rewrite (maybe_lookup l Hn) in H. unfold own_properties.
      destruct (lookup (s_ "properties") l) as [v|] eqn:E.
      2:{ exists []. split; [reflexivity|]. left. split; [now apply no_member_lookup | reflexivity]. }
      apply lookup_In in E. assert (Hfv := fine_member _ _ _ Hfine E). destruct H as (ms & -> & Hms).
      unfold properties_of. cbn [fields bind].
      destruct (mapM_exists
        (fun np : str * jval =>
            let (name, p) := np in
            do l <- fields p;
            do d <- M_Validate.get (s_ "description") l;
            do description <- text d;
            do json <- text_or name (s_ "json") l;
            do t <- type_of re_ok cns ens p;
            Ok (Prop_ (ref ++ s_ "/" ++ name) name t description json (flag (s_ "optional") l)))
        (describes_property num cns ens ref) (item_list ordered ms)) as (ps & Eps & Hps).
      - intros (k, p) Hin. assert (Hin' : In (k, p) ms).
        { eapply Permutation_in; [symmetry; apply item_list_perm | exact Hin]. }
        assert (Hfp := fine_member _ _ _ Hfv Hin'). destruct (Hms _ _ Hin') as (_ & _ & m & -> & A & B & C & _ & _ & T).
        assert (Hwp := proj1 Hfp). assert (Hwp' := Hwp). apply wf_obj in Hwp. destruct Hwp as [Hnm Hwm]. cbn [fields bind].
        destruct A as (d & Hd & t & -> & _). rewrite (get_ok m Hnm _ _ Hd). cbn [bind text].
        destruct (text_or_ok m Hnm k "json" B) as (js & -> & Hjs). cbn [bind].
        destruct Hfp as (_ & F1 & F2 & F3).
        destruct (type_of_ok num re_ok g cns ens names_ok (JObj m) true Hwp' T F1 F2 F3) as (ty & -> & Hty). cbn [bind].
        eexists. split; [reflexivity|]. exists m. cbn [fst snd p_name p_ref p_description p_json p_optional p_type].
        repeat split; auto. now apply flag_ok.
      - exists ps. split; [exact Eps|]. right. exists ms, (item_list ordered ms).
        split; [exact E|]. split; [apply item_list_perm|]. split; [intros ->; reflexivity | exact Hps].
    Qed.

    Lemma class_of_ok ref l : fine (JObj l) -> class_ok re_ok ordered names (JObj l) ->
      exists c ps, class_of re_ok ref l = Ok c /\ own_properties re_ok ordered cns ens ref l = Ok ps /\
        In (s_ "name", JStr (c_name c)) l /\ describes_class num ordered cns ens ref (JObj l) (with_cprops c ps).
    Proof.
      intros Hfine (l' & [= <-] & _ & A & B & C & D & E). assert (Hw := proj1 Hfine). apply wf_obj in Hw. destruct Hw as [Hn Hw].
      destruct A as (n & Hname & n' & -> & _). destruct B as (d & Hd & d' & -> & _).
      destruct (own_properties_ok ref l _ Hfine E) as (ps & Eps & Hps).
      destruct (compile_ok l Hn re_ok "id_pattern" D) as (pat & Epat & Hpat).
      assert (C' : maybe l "plural" (a_text any)).
      { intros x Hx. destruct (C x Hx) as (t & -> & _). exists t. split; [reflexivity | exact I]. }
      destruct (text_or_ok l Hn (plural n') "plural" C') as (pl & Epl & Hpl).
      unfold class_of. rewrite (get_ok l Hn _ _ Hname). cbn [bind text]. rewrite Epl. cbn [bind].
      rewrite (get_ok l Hn _ _ Hd). cbn [bind text]. rewrite Epat. cbn [bind].
      eexists _, ps. split; [reflexivity|]. split; [exact Eps|]. split; [exact Hname|].
      exists l. unfold with_cprops. cbn [c_name c_description c_plural c_id_pattern c_ref c_props].
      repeat split; auto. exists l. split; [reflexivity|].
      destruct Hpl as [(v & Hv & ->) | [Hno ->]]; [now left | right]. split; [exact Hno|]. exists n'. auto.
    Qed.
    Lemma embed_of_ok ref l : fine (JObj l) -> embed_ok re_ok ordered names (JObj l) ->
      exists c ps, embed_of ref l = Ok c /\ own_properties re_ok ordered cns ens ref l = Ok ps /\
        In (s_ "name", JStr (e_name c)) l /\ describes_embed num ordered cns ens ref (JObj l) (with_eprops c ps).
    Proof.
      intros Hfine (l' & [= <-] & _ & A & B & E). assert (Hw := proj1 Hfine). apply wf_obj in Hw. destruct Hw as [Hn Hw].
      destruct A as (n & Hname & n' & -> & _). destruct B as (d & Hd & d' & -> & _).
      destruct (own_properties_ok ref l _ Hfine E) as (ps & Eps & Hps).
      unfold embed_of. rewrite (get_ok l Hn _ _ Hname). cbn [bind text].
      rewrite (get_ok l Hn _ _ Hd). cbn [bind text].
      eexists _, ps. split; [reflexivity|]. split; [exact Eps|]. split; [exact Hname|].
      exists l. unfold with_eprops. cbn [e_name e_description e_ref e_props]. repeat split; auto.
    Qed.
  End Composites.

  Lemma list_part l k xs x : list_under l k xs -> In x xs -> exists a, In (s_ k, JArr a) l /\ In x a.
  Proof. intros [H | [_ ->]] Hx; [eauto | contradiction]. Qed.

  Theorem schema_of_ok v ref : json_wf v -> document re_ok ordered v -> finite_numbers v -> graph_not_a_type v ->
    (forall w z, part w v -> a_number w -> int_of w = Ok z -> num w (Some z)) ->
    exists s, schema_of re_ok ordered v ref = Ok s /\ describes_schema num ordered ref v s.
  Proof.
    intros Hw0 Hdoc Hfin Hgr Hnum.
    destruct Hdoc as [l n classes embeds cns ens Hkeys Horder Hname Hcap Hdesc Hcpp Hgo Hpy Hcl Hem Hcns Hens Hnd Hcok Heok Hprops Hpl].
    assert (Hw := Hw0). apply wf_obj in Hw. destruct Hw as [Hn Hw].
    assert (Hfine : fine n (JObj l)).
    { split; [exact Hw0|]. split; [exact Hfin|]. split; [|exact Hnum]. intros m Hm. apply (Hgr n m); [|exact Hm]. exists l. auto. }
    assert (Hfc : forall c, In c classes -> fine n c).
    { intros c Hc. destruct (list_part _ _ _ _ Hcl Hc) as (a & Ha & Hx).
      eapply fine_element; [|exact Hx]. eapply fine_member; eauto. }
    assert (Hfe : forall c, In c embeds -> fine n c).
    { intros c Hc. destruct (list_part _ _ _ _ Hem Hc) as (a & Ha & Hx).
      eapply fine_element; [|exact Hx]. eapply fine_member; eauto. }
    assert (Hnames : forall x, In x (n :: cns ++ ens) -> ~ In x NONCOMPOSITE).
    { intros x Hx. apply capital_not_noncomposite. destruct Hx as [<- | Hx]; [exact Hcap|].
      apply in_app_iff in Hx. destruct Hx as [Hx | Hx].
      - apply (Forall2_In_right _ _ _ Hcns) in Hx. destruct Hx as (c & Hc & m & -> & Hm).
        destruct (Hcok _ Hc) as (m' & [= <-] & _ & (y & Hy & t & -> & Ht) & _).
        assert (Hwc := proj1 (Hfc _ Hc)). apply wf_obj in Hwc. assert (E := unique _ (proj1 Hwc) _ _ _ Hm Hy).
        injection E as ->. now apply lax_identifier_starts.
      - apply (Forall2_In_right _ _ _ Hens) in Hx. destruct Hx as (c & Hc & m & -> & Hm).
        destruct (Heok _ Hc) as (m' & [= <-] & _ & (y & Hy & t & -> & Ht) & _).
        assert (Hwc := proj1 (Hfe _ Hc)). apply wf_obj in Hwc. assert (E := unique _ (proj1 Hwc) _ _ _ Hm Hy).
        injection E as ->. exact Ht. }
    destruct Hdesc as (d & Hd & d' & -> & _).
    assert (Ecl : elements (s_ "classes") l = Ok classes) by now apply elements_iff.
    assert (Eem : elements (s_ "embeds") l = Ok embeds) by now apply elements_iff.
    unfold schema_of. cbn [fields bind]. rewrite (text_at_ok l Hn _ _ Hname). cbn [bind].
    rewrite (text_at_ok l Hn _ _ Hd). cbn [bind]. rewrite Ecl. cbn [bind].
    (* the classes *)
    set (R := fun (ix : nat * jval) (x : cls * list prop) => exists fs, snd ix = JObj fs /\
      class_of re_ok (nth_ref ref (s_ "classes") (fst ix)) fs = Ok (fst x) /\
      own_properties re_ok ordered cns ens (nth_ref ref (s_ "classes") (fst ix)) fs = Ok (snd x) /\
      NoDup (keys fs) /\ In (s_ "name", JStr (c_name (fst x))) fs /\
      describes_class num ordered cns ens (nth_ref ref (s_ "classes") (fst ix)) (JObj fs) (with_cprops (fst x) (snd x))).
    destruct (choose R (enumerate classes)) as (xs & HR).
    { intros (i, c) Hi. apply enumerate_In, nth_error_In in Hi. assert (Hok := Hcok _ Hi). assert (Hf := Hfc _ Hi).
      destruct Hok as (fs & -> & Hok). assert (Hok' : class_ok re_ok ordered (n :: cns ++ ens) (JObj fs)) by (exists fs; auto).
      destruct (class_of_ok n cns ens Hnames (nth_ref ref (s_ "classes") i) fs Hf Hok') as (c & ps & A & B & C & D).
      exists (c, ps), fs. cbn [fst snd]. assert (Hwf := proj1 Hf). apply wf_obj in Hwf. repeat split; auto. tauto. }
    assert (Ecs : mapM (fun ix : nat * jval => do fs <- fields (snd ix); class_of re_ok (nth_ref ref (s_ "classes") (fst ix)) fs)
        (enumerate classes) = Ok (map fst xs)).
    { apply mapM_Ok. apply Forall2_map_right. eapply Forall2_weaken; [|exact HR]. intros (i, c) (c', ps) (fs & E & A & _).
      cbn [fst snd] in *. subst c. exact A. }
    rewrite Ecs. cbn [bind].
    assert (Ncs : map c_name (map fst xs) = cns).
    { apply (Forall2_name_unique classes); [intros c Hc; apply (proj1 (Hfc _ Hc)) | | exact Hcns].
      rewrite <- (enumerate_snd classes). apply Forall2_map_left. rewrite map_map. apply Forall2_map_right.
      eapply Forall2_weaken; [|exact HR]. intros (i, c) (c', ps) (fs & E & _ & _ & _ & A & _).
      cbn [fst snd] in *. subst c. exists fs. auto. }
    (* the embeds *)
    rewrite Eem. cbn [bind].
    set (RE := fun (ix : nat * jval) (x : embed * list prop) => exists fs, snd ix = JObj fs /\
      embed_of (nth_ref ref (s_ "embeds") (fst ix)) fs = Ok (fst x) /\
      own_properties re_ok ordered cns ens (nth_ref ref (s_ "embeds") (fst ix)) fs = Ok (snd x) /\
      NoDup (keys fs) /\ In (s_ "name", JStr (e_name (fst x))) fs /\
      describes_embed num ordered cns ens (nth_ref ref (s_ "embeds") (fst ix)) (JObj fs) (with_eprops (fst x) (snd x))).
    destruct (choose RE (enumerate embeds)) as (ys & HE).
    { intros (i, c) Hi. apply enumerate_In, nth_error_In in Hi. assert (Hok := Heok _ Hi). assert (Hf := Hfe _ Hi).
      destruct Hok as (fs & -> & Hok). assert (Hok' : embed_ok re_ok ordered (n :: cns ++ ens) (JObj fs)) by (exists fs; auto).
      destruct (embed_of_ok n cns ens Hnames (nth_ref ref (s_ "embeds") i) fs Hf Hok') as (c & ps & A & B & C & D).
      exists (c, ps), fs. cbn [fst snd]. assert (Hwf := proj1 Hf). apply wf_obj in Hwf. repeat split; auto. tauto. }
    assert (Ees : mapM (fun ix : nat * jval => do fs <- fields (snd ix); embed_of (nth_ref ref (s_ "embeds") (fst ix)) fs)
        (enumerate embeds) = Ok (map fst ys)).
    { apply mapM_Ok. apply Forall2_map_right. eapply Forall2_weaken; [|exact HE]. intros (i, c) (c', ps) (fs & E & A & _).
      cbn [fst snd] in *. subst c. exact A. }
    rewrite Ees. cbn [bind].
    assert (Nes : map e_name (map fst ys) = ens).
    { apply (Forall2_name_unique embeds); [intros c Hc; apply (proj1 (Hfe _ Hc)) | | exact Hens].
      rewrite <- (enumerate_snd embeds). apply Forall2_map_left. rewrite map_map. apply Forall2_map_right.
      eapply Forall2_weaken; [|exact HE]. intros (i, c) (c', ps) (fs & E & _ & _ & _ & A & _).
      cbn [fst snd] in *. subst c. exists fs. auto. }
    apply NoDup_cons_iff in Hnd. destruct Hnd as [_ Hnd].
    assert (Dc : NoDup (map c_name (map fst xs))) by (rewrite Ncs; eapply NoDup_app_left; exact Hnd).
    assert (De : NoDup (map e_name (map fst ys))) by (rewrite Nes; eapply NoDup_app_right; exact Hnd).
    rewrite (puts_class (map fst xs) []) by exact Dc. rewrite (puts_embed (map fst ys) []) by exact De. cbn [app].
    rewrite Ncs, Nes.
    destruct (own_properties_ok n cns ens Hnames ref l [] Hfine Hprops) as (gps & Eg & Hg). rewrite Eg. cbn [bind].
    assert (Ecp : mapM (fun ix : nat * jval =>
                      do fs <- fields (snd ix);
                      do n <- text_at (s_ "name") fs;
                      do ps <- own_properties re_ok ordered cns ens (nth_ref ref (s_ "classes") (fst ix)) fs;
                      Ok (n, ps)) (enumerate classes) = Ok (map (fun x => (c_name (fst x), snd x)) xs)).
    { apply mapM_Ok. apply Forall2_map_right. eapply Forall2_weaken; [|exact HR].
      intros (i, c) (c', ps) (fs & E & A & B & C & D & _). cbn [fst snd] in *. subst c. cbn [fields bind].
      rewrite (text_at_ok fs C _ _ D). cbn [bind]. rewrite B. reflexivity. }
    rewrite Ecp. cbn [bind].
    assert (Eep : mapM (fun ix : nat * jval =>
                      do fs <- fields (snd ix);
                      do n <- text_at (s_ "name") fs;
                      do ps <- own_properties re_ok ordered cns ens (nth_ref ref (s_ "embeds") (fst ix)) fs;
                      Ok (n, ps)) (enumerate embeds) = Ok (map (fun x => (e_name (fst x), snd x)) ys)).
    { apply mapM_Ok. apply Forall2_map_right. eapply Forall2_weaken; [|exact HE].
      intros (i, c) (c', ps) (fs & E & A & B & C & D & _). cbn [fst snd] in *. subst c. cbn [fields bind].
      rewrite (text_at_ok fs C _ _ D). cbn [bind]. rewrite B. reflexivity. }
    rewrite Eep. cbn [bind].
    destruct (sets_class (map (fun x => (c_name (fst x), snd x)) xs) (map fst xs)) with (pre := @nil cls)
      as (cs' & Ecs' & Ncs' & Lcs' & Hcs'); [clear; induction xs; constructor; auto | exact Dc |].
    destruct (sets_embed (map (fun x => (e_name (fst x), snd x)) ys) (map fst ys)) with (pre := @nil embed)
      as (es' & Ees' & Nes' & Les' & Hes'); [clear; induction ys; constructor; auto | exact De |].
    cbn [app] in Ecs', Ees'. rewrite Ecs', Ees'.
    destruct (settings_ok cpp_of cpp_ok describes_cpp l "cpp" Hw0 cpp_described Hcpp) as (cpp & -> & Dcpp). cbn [bind].
    destruct (settings_ok go_of go_ok describes_go l "go" Hw0 go_described Hgo) as (go & -> & Dgo). cbn [bind].
    destruct (settings_ok py_of py_ok describes_py l "py" Hw0 py_described Hpy) as (py & -> & Dpy). cbn [bind].
    eexists. split; [reflexivity|]. split; [|exists l; cbn [sc_cpp sc_go sc_py]; auto].
    destruct (enumerate_Forall2 _ _ _ HR) as [L1 K1]. destruct (enumerate_Forall2 _ _ _ HE) as [L2 K2].
    rewrite map_length in Lcs', Les'.
    unfold describes_graph. cbn [sc_graph g_name g_description g_ref g_classes g_embeds g_props].
    rewrite Ncs', Nes', Ncs, Nes. exists l, classes, embeds.
    repeat (split; [solve [reflexivity | assumption | congruence]|]). split; [|split; [|exact Hg]].
    - intros i c e Hi Hc. destruct (nth_error xs i) as [x|] eqn:Ex.
      2:{ apply nth_error_None in Ex. assert (i < length classes) by (apply nth_error_Some; congruence). lia. }
      destruct (K1 i e x Hi Ex) as (fs & E & _ & _ & _ & _ & A). cbn [fst snd] in *. subst e.
      rewrite (Hcs' i (c_name (fst x), snd x) (fst x)) in Hc; [|now rewrite nth_error_map, Ex | now rewrite nth_error_map, Ex].
      injection Hc as <-. exact A.
    - intros i c e Hi Hc. destruct (nth_error ys i) as [x|] eqn:Ex.
      2:{ apply nth_error_None in Ex. assert (i < length embeds) by (apply nth_error_Some; congruence). lia. }
      destruct (K2 i e x Hi Ex) as (fs & E & _ & _ & _ & _ & A). cbn [fst snd] in *. subst e.
      rewrite (Hes' i (e_name (fst x), snd x) (fst x)) in Hc; [|now rewrite nth_error_map, Ex | now rewrite nth_error_map, Ex].
      injection Hc as <-. exact A.
  Qed.
End Whole.
