(** Proofs about the validation of type definitions. *)
From Verif Require Import Base M_Naming M_Schema M_Dec M_Strftime M_Validate S_Conform P_Naming S_Validate P_Validate.
From Coq Require Import String List Arith NArith ZArith QArith Bool Lia Permutation Floats.SpecFloat.
Import ListNotations.
Open Scope list_scope.
Local Open Scope nat_scope.

Lemma wf_obj l : json_wf (JObj l) -> NoDup (keys l) /\ forall k v, In (k, v) l -> json_wf v.
Proof. intros H. inversion H. auto. Qed.

Lemma no_member_lookup l k : no_member l k <-> lookup (s_ k) l = None.
Proof. unfold no_member. now rewrite lookup_None. Qed.

Section Members.
  Context (l : list (str * jval)) (Hn : NoDup (keys l)).

  Lemma unique k a b : In (k, a) l -> In (k, b) l -> a = b.
  Proof. intros H1 H2. apply (In_lookup _ _ _ Hn) in H1, H2. congruence. Qed.

  Lemma flag_iff k : flag (s_ k) l = true <-> In (s_ k, JBool true) l.
  Proof.
    unfold flag. rewrite <- (lookup_iff _ _ _ Hn). destruct (lookup (s_ k) l) as [[| []| | | | |]|]; split; congruence.
  Qed.

  Lemma maybe_lookup k P : maybe l k P <-> match lookup (s_ k) l with Some v => P v | None => True end.
  Proof.
    unfold maybe. destruct (lookup (s_ k) l) as [v|] eqn:E.
    - split.
      + intros H. apply H. now apply lookup_In.
      + intros H w Hw. apply (In_lookup _ _ _ Hn) in Hw. congruence.
    - split; auto. intros _ w Hw. apply (In_lookup _ _ _ Hn) in Hw. congruence.
  Qed.

  Lemma range_iff ref : validate_range l ref = None <-> range_stated l.
  Proof.
    unfold validate_range, range_stated. destruct (lookup (s_ "minimum") l) as [a|] eqn:Ea.
    2:{ split; auto. intros _ a b Ha. apply (In_lookup _ _ _ Hn) in Ha. congruence. }
    destruct (lookup (s_ "maximum") l) as [b|] eqn:Eb.
    2:{ split; auto. intros _ a' b _ Hb. apply (In_lookup _ _ _ Hn) in Hb. congruence. }
    assert (Hs : (~ below (value b) (value a) /\
       (In (s_ "exclusive_minimum", JBool true) l \/ In (s_ "exclusive_maximum", JBool true) l -> ~ same (value a) (value b))) <->
       (forall a' b', In (s_ "minimum", a') l -> In (s_ "maximum", b') l -> ~ below (value b') (value a') /\
       (In (s_ "exclusive_minimum", JBool true) l \/ In (s_ "exclusive_maximum", JBool true) l -> ~ same (value a') (value b')))).
    { split.
      - intros H a' b' Ha Hb. apply (In_lookup _ _ _ Hn) in Ha, Hb.
        assert (a' = a) by congruence. assert (b' = b) by congruence. subst. exact H.
      - intros H. apply H; now apply lookup_In. }
    rewrite <- Hs. clear Hs. rewrite <- num_gt_spec, <- num_eq_spec.
    rewrite <- (flag_iff "exclusive_minimum"), <- (flag_iff "exclusive_maximum").
    destruct (num_gt a b), (flag (s_ "exclusive_minimum") l), (flag (s_ "exclusive_maximum") l), (num_eq a b);
      cbn [andb negb]; intuition congruence.
  Qed.

  Lemma pattern_iff re_ok ref : validate_pattern re_ok l ref = None <-> maybe l "pattern" (a_text (fun p => re_ok p = true)).
  Proof.
    unfold validate_pattern. rewrite maybe_lookup. unfold a_text.
    destruct (lookup (s_ "pattern") l) as [[| | | |p| |]|]; try (split; [discriminate | intros (? & E & _); discriminate]).
    - destruct (re_ok p) eqn:E; split; try discriminate; eauto. intros (q & [= <-] & H). congruence.
    - split; auto.
  Qed.

  Lemma format_iff valid ref : maybe l "format" (a_text any) ->
    validate_format valid l ref = None <-> maybe l "format" (a_text (fun f => valid f = true)).
  Proof.
    unfold validate_format. rewrite !maybe_lookup. unfold a_text.
    destruct (lookup (s_ "format") l) as [v|]; [|tauto]. intros (f & -> & _).
    destruct (valid f) eqn:E; split; try discriminate; eauto. intros (q & [= <-] & H). congruence.
  Qed.

  Lemma sizes_iff ref : maybe l "minimum_size" a_size -> maybe l "maximum_size" a_size ->
    validate_sizes l ref = None <-> sizes_stated l.
  Proof.
    unfold validate_sizes, sizes_stated. rewrite !maybe_lookup. unfold a_size.
    destruct (lookup (s_ "minimum_size") l) as [a|] eqn:Ea.
    2:{ split; auto. intros _ x y Hx. apply (In_lookup _ _ _ Hn) in Hx. congruence. }
    destruct (lookup (s_ "maximum_size") l) as [b|] eqn:Eb.
    2:{ split; auto. intros _ x y _ Hx. apply (In_lookup _ _ _ Hn) in Hx. congruence. }
    intros (x & -> & Hx) (y & -> & Hy).
    assert (H : num_gt (JInt x) (JInt y) = true <-> (y < x)%Z).
    { rewrite num_gt_spec. cbn. rewrite <- Zlt_Qlt. tauto. }
    destruct (num_gt (JInt x) (JInt y)); split; try discriminate; auto.
    - intros H'. specialize (H' x y (lookup_In _ _ _ Ea) (lookup_In _ _ _ Eb)). destruct H as [H _].
      specialize (H eq_refl). lia.
    - intros _ x' y' Hx' Hy'. apply (In_lookup _ _ _ Hn) in Hx', Hy'.
      assert (x' = x) by congruence. assert (y' = y) by congruence. subst.
      destruct (Z.le_gt_cases x y) as [|C]; auto. apply Z.lt_gt in C. destruct H as [_ H].
      discriminate H. lia.
  Qed.

  Lemma unexpected_iff ks : unexpected ks l = None <-> forall k, In k (keys l) -> In k ks.
  Proof.
    unfold unexpected. split.
    - intros H k Hk. assert (H' := find_none _ _ H k Hk). cbn beta in H'.
      apply negb_false_iff in H'. now apply mem_In.
    - intros H. destruct (find _ (keys l)) as [k|] eqn:E; auto. apply find_some in E. destruct E as [Hk E].
      apply negb_true_iff in E. apply mem_not_In in E. exfalso. auto.
  Qed.
End Members.

Lemma on_key_lookup {A} (f : jval -> A) m k l :
  on_key f m k l = match lookup k l with Some x => f x | None => m end.
Proof. induction l as [|(k', x) r IH]; [reflexivity|]. cbn. destruct (str_eqb k k'); auto. Qed.

(** validation.py:460-501 *)
Definition logic re_ok (type : str) (l : list (str * jval)) (ref : str) (values : res (option serr)) : res (option serr) :=
  if str_eqb type (s_ "boolean") then Ok None
  else if str_eqb type (s_ "integer") then Ok (validate_range l ref)
  else if str_eqb type (s_ "float") then Ok (validate_range l ref)
  else if str_eqb type (s_ "string") then Ok (validate_pattern re_ok l ref)
  else if str_eqb type (s_ "path") then Ok (validate_pattern re_ok l ref)
  else if str_eqb type (s_ "date") then Ok (validate_format date_format_valid l ref)
  else if str_eqb type (s_ "time") then Ok (validate_format time_format_valid l ref)
  else if str_eqb type (s_ "datetime") then Ok (validate_format datetime_format_valid l ref)
  else if str_eqb type (s_ "duration") then Ok None
  else if str_eqb type (s_ "time_zone") then Ok None
  else if str_eqb type (s_ "array") then
    match validate_sizes l ref with
    | Some e => Ok (Some e)
    | None => values
    end
  else if str_eqb type (s_ "map") then values
  else if mem type NONCOMPOSITE then Raise AssertionError
  else Ok None.

Definition checks re_ok (top : bool) (types : list str) (ref : str) (l : list (str * jval)) (type : str)
    (values : res (option serr)) : res (option serr) :=
  if negb (mem type types) then Ok (Some (SErr (ref ++ s_ "/type") EInvalidType))
  else
    let sch := lookup type TYPE_TO_SCHEMA in
    let type_keys := match sch with Some (ps, _) => keys ps | None => [] end in
    if match sch with Some (ps, req) => jvalid (SObject ps req (Some SAny)) (JObj l) | None => true end
    then
      match unexpected (expected_keys top type_keys) l with
      | Some key => Ok (Some (SErr ref (EUnexpectedKey key)))
      | None => logic re_ok type l ref values
      end
    else Ok (Some (SErr ref (ETypeSchema (match sch with
                                          | Some (ps, req) => jblame (SObject ps req (Some SAny)) (JObj l)
                                          | None => []
                                          end)))).

Lemma validate_type_eq re_ok ordered top types ref l :
  validate_type re_ok ordered top types ref (JObj l) =
  (do oerr <- (if top && ordered then validate_key_order l ref else Ok None);
   match oerr with
   | Some e => Ok (Some e)
   | None =>
       do t <- M_Validate.get (s_ "type") l;
       match t with
       | JArr _ | JObj _ => Raise TypeError
       | JStr type =>
           checks re_ok top types ref l type
             (match lookup (s_ "values") l with
              | Some x => validate_type re_ok ordered false types (ref ++ s_ "/values") x
              | None => Raise KeyError
              end)
       | _ => Ok (Some (SErr (ref ++ s_ "/type") EInvalidType))
       end
   end).
Proof.
  cbn [validate_type]. destruct (if top && ordered then _ else _) as [[e|]|]; cbn [bind]; try reflexivity.
  destruct (M_Validate.get _ l) as [[]|]; cbn [bind]; try reflexivity. unfold checks, logic.
  rewrite on_key_lookup. reflexivity.
Qed.

Definition noncomposite : list string :=
  ["boolean"; "integer"; "float"; "string"; "path"; "date"; "time"; "datetime";
   "duration"; "time_zone"; "array"; "map"]%string.
Lemma NONCOMPOSITE_eq : NONCOMPOSITE = map s_ noncomposite.
Proof. reflexivity. Qed.
Lemma TYPE_TO_SCHEMA_keys t : In t (keys TYPE_TO_SCHEMA) <-> In t NONCOMPOSITE.
Proof. cbn. tauto. Qed.

Section Checks.
  Variables (re_ok : str -> bool) (ordered : bool) (names : list str).
  Hypothesis names_ok : forall n, In n names -> ~ In n NONCOMPOSITE.
  Let types := NONCOMPOSITE ++ names.

  Lemma checks_simple top ref l t extra ks req values :
    NoDup (keys l) -> In (s_ "type", JStr (s_ t)) l -> In (s_ t) NONCOMPOSITE ->
    lookup (s_ t) TYPE_TO_SCHEMA = Some (base_keys ++ extra, req) -> keys extra = map s_ ks ->
    checks re_ok top types ref l (s_ t) values = Ok None <->
    described l /\ Forall (valid_member l) extra /\ Forall (fun k => In k (keys l)) req /\
    members top l ks /\ logic re_ok (s_ t) l ref values = Ok None.
  Proof.
    intros Hn Ht Hin El Ek. unfold checks.
    assert (Em : mem (s_ t) types = true) by (apply mem_In, in_app_iff; auto).
    rewrite Em, El. cbn [negb]. cbv zeta.
    assert (Hj : jvalid (SObject (base_keys ++ extra) req (Some SAny)) (JObj l) = true <->
      described l /\ Forall (valid_member l) extra /\ Forall (fun k => In k (keys l)) req).
    { rewrite jvalid_object by exact Hn. rewrite Forall_app. unfold base_keys at 1.
      rewrite !Forall_cons_iff. unfold valid_member at 1 2. cbn [fst snd].
      assert (H1 : described l <-> (forall v, In (s_ "description", v) l -> jvalid any_string v = true)).
      { unfold described, maybe, a_text, any. split; intros H v Hv; specialize (H v Hv).
        - destruct H as (s & -> & _). reflexivity.
        - destruct v; try discriminate. eauto. }
      rewrite H1. split; [tauto|]. intros (H2 & H3 & H4). repeat split; auto.
      - intros v Hv. rewrite (unique l Hn _ _ _ Hv Ht). reflexivity.
      - intros k v _. right. exists SAny. auto. }
    destruct (jvalid _ _).
    - assert (Hu : unexpected (expected_keys top (keys (base_keys ++ extra))) l = None <-> members top l ks).
      { rewrite unexpected_iff. unfold members, only, expected_keys. unfold keys at 2. rewrite map_app.
        change (map fst extra) with (keys extra). rewrite Ek.
        split; intros H k Hk; specialize (H k Hk); destruct top; revert H; unfold base_keys;
          cbn [map fst app In]; tauto. }
      destruct (unexpected _ l) as [bad|]; split.
      + discriminate.
      + intros H. assert (H' : Some bad = None) by tauto. discriminate.
      + intros H. tauto.
      + tauto.
    - split; [discriminate|]. intros H. assert (false = true) by tauto. discriminate.
  Qed.

  Lemma checks_composite top ref l n values :
    In n names -> checks re_ok top types ref l n values = Ok None <-> members top l [].
  Proof.
    intros Hin. unfold checks.
    assert (Em : mem n types = true) by (apply mem_In, in_app_iff; auto). rewrite Em. cbn [negb].
    assert (El : lookup n TYPE_TO_SCHEMA = None).
    { apply lookup_None. rewrite TYPE_TO_SCHEMA_keys. auto. }
    rewrite El. cbv zeta.
    assert (Hu : unexpected (expected_keys top []) l = None <-> members top l []).
    { rewrite unexpected_iff. unfold members, only, expected_keys.
      split; intros H k Hk; specialize (H k Hk); destruct top; revert H; cbn [map app In]; tauto. }
    destruct (unexpected _ l) eqn:Eu.
    - split; [discriminate|]. intros H. apply Hu in H. discriminate.
    - split; [tauto|]. intros _. unfold logic.
      assert (Hne : forall t, In (s_ t) NONCOMPOSITE -> str_eqb n (s_ t) = false).
      { intros t H. apply str_eqb_neq. intros ->. apply (names_ok _ Hin). exact H. }
      rewrite !Hne by (rewrite NONCOMPOSITE_eq; apply in_map; cbn; tauto).
      assert (E : mem n NONCOMPOSITE = false) by (apply mem_not_In; auto). rewrite E. reflexivity.
  Qed.

  Lemma members_perm top l ks ks' : (forall k, In k ks -> In k ks') -> members top l ks -> members top l ks'.
  Proof.
    unfold members, only. intros H Hm k Hk. specialize (Hm k Hk).
    rewrite !map_app, !in_app_iff in *. destruct Hm as [Hm | [Hm | Hm]]; auto. right. right.
    apply in_map_iff in Hm. destruct Hm as (x & <- & Hx). apply in_map. auto.
  Qed.

  Lemma valid_cons l k s r : Forall (valid_member l) ((s_ k, s) :: r) <->
    maybe l k (fun v => jvalid s v = true) /\ Forall (valid_member l) r.
  Proof. rewrite Forall_cons_iff. reflexivity. Qed.
  Lemma maybe_iff l k P Q : (forall v, P v <-> Q v) -> maybe l k P <-> maybe l k Q.
  Proof. unfold maybe. intros H. split; intros H' v Hv; apply H; auto. Qed.

  Lemma j_string v : jvalid any_string v = true <-> a_text any v.
  Proof.
    unfold a_text, any. destruct v; cbn; split; intros H; try discriminate; try (destruct H as (? & E & _); discriminate); eauto.
  Qed.
  Lemma j_boolean v : jvalid SBoolean v = true <-> a_boolean v.
  Proof.
    unfold a_boolean. destruct v; cbn; split; intros H; try discriminate; try (destruct H as (? & E); discriminate); eauto.
  Qed.
  Lemma j_integer v : jvalid (SInteger None) v = true <-> an_integer v.
  Proof.
    unfold an_integer. destruct v; cbn; split; intros H; try discriminate; try (destruct H as (? & E); discriminate); eauto.
  Qed.
  Lemma j_size v : jvalid (SInteger (Some 0%Z)) v = true <-> a_size v.
  Proof.
    unfold a_size. destruct v; cbn; split; intros H; try discriminate; try (destruct H as (? & E & _); discriminate); eauto.
    - apply Z.leb_le in H. eauto.
    - destruct H as (z' & [= <-] & H). now apply Z.leb_le.
  Qed.
  Lemma j_number v : jvalid SNumber v = true <-> a_number v.
  Proof.
    unfold a_number. destruct v; cbn; split; intros H; try discriminate;
      try (destruct H as [(? & E) | (? & E)]; discriminate); eauto.
  Qed.
  Lemma j_object v : json_wf v -> jvalid an_object v = true <-> exists l, v = JObj l.
  Proof.
    intros Hw. destruct v; try (split; intros H; [discriminate | destruct H as (? & E); discriminate]).
    split; [eauto|]. intros _. unfold an_object. apply wf_obj in Hw. apply jvalid_object; [tauto|].
    repeat split; auto. intros k v Hv. right. exists SAny. auto.
  Qed.

  (** The order of the members in the definition of a property *)
  Definition order_ok (top : bool) (v : jval) : Prop :=
    top && ordered = true -> exists l ref, v = JObj l /\ validate_key_order l ref = Ok None.

  Lemma key_order_ref l r1 r2 : validate_key_order l r1 = Ok None -> validate_key_order l r2 = Ok None.
  Proof.
    unfold validate_key_order. destruct (keys l) as [|k0 [|k1 r]]; auto;
      repeat match goal with |- context [if ?b then _ else _] => destruct b end; auto; discriminate.
  Qed.

  Lemma ref_irrelevant_range l r1 r2 : validate_range l r1 = None -> validate_range l r2 = None.
  Proof.
    unfold validate_range. repeat match goal with |- context [match ?b with _ => _ end] => destruct b end; auto; discriminate.
  Qed.

  Lemma validate_type_ok v : forall top ref, json_wf v ->
    validate_type re_ok ordered top types ref v = Ok None <-> order_ok top v /\ type_ok re_ok names top v.
  Proof.
    induction v as [| | | | |l IH|l IH] using jval_ind'; intros top ref Hw;
      try (split; [discriminate | intros [_ H]; inversion H]).
    apply wf_obj in Hw. destruct Hw as [Hn Hw]. rewrite validate_type_eq.
    assert (Ho : (if top && ordered then validate_key_order l ref else Ok None) = Ok None <-> order_ok top (JObj l)).
    { unfold order_ok. destruct (top && ordered).
      - split; [eauto|]. intros H. destruct (H eq_refl) as (l' & r & [= <-] & H'). eapply key_order_ref; eauto.
      - split; [discriminate | reflexivity]. }
    rewrite <- Ho.
    destruct (if top && ordered then _ else _) as [[e|]|]; cbn [bind]; try (split; [discriminate | intros [H _]; discriminate]).
    clear Ho.
    enough (Hmain : (do t <- M_Validate.get (s_ "type") l;
       match t with
       | JArr _ | JObj _ => Raise TypeError
       | JStr type =>
           checks re_ok top types ref l type
             (match lookup (s_ "values") l with
              | Some x => validate_type re_ok ordered false types (ref ++ s_ "/values") x
              | None => Raise KeyError
              end)
       | _ => Ok (Some (SErr (ref ++ s_ "/type") EInvalidType))
       end) = Ok None <-> type_ok re_ok names top (JObj l)).
    { rewrite Hmain. tauto. }
    set (values := match lookup (s_ "values") l with Some _ => _ | None => _ end).
    assert (Hv : values = Ok None <-> exists x, In (s_ "values", x) l /\ type_ok re_ok names false x).
    { subst values. destruct (lookup (s_ "values") l) as [x|] eqn:Ex.
      - assert (Hx := lookup_In _ _ _ Ex). rewrite Forall_forall in IH. rewrite (IH _ Hx) by eauto.
        unfold order_ok. cbn [andb]. split.
        + intros [_ H]. eauto.
        + intros (y & Hy & H). rewrite (unique l Hn _ _ _ Hx Hy). split; [discriminate | exact H].
      - split; [discriminate|]. intros (y & Hy & _). apply (In_lookup _ _ _ Hn) in Hy. congruence. }
    assert (Ht : forall t', In (s_ "type", t') l -> M_Validate.get (s_ "type") l = Ok t').
    { intros t' H. apply (In_lookup _ _ _ Hn) in H. unfold M_Validate.get. now rewrite H. }
    assert (Hnon : forall t, In (s_ "type", JStr (s_ t)) l ->
       (do t <- M_Validate.get (s_ "type") l;
       match t with
       | JArr _ | JObj _ => Raise TypeError
       | JStr type => checks re_ok top types ref l type values
       | _ => Ok (Some (SErr (ref ++ s_ "/type") EInvalidType))
       end) = checks re_ok top types ref l (s_ t) values).
    { intros t H. rewrite (Ht _ H). reflexivity. }
    split.
    - intros H. unfold M_Validate.get in H. destruct (lookup (s_ "type") l) as [t|] eqn:Et; [|discriminate].
      cbn [bind] in H. destruct t as [| | | |t| |]; try discriminate. apply lookup_In in Et.
      destruct (in_dec str_eq_dec t names) as [Hin | Hin].
      { apply (ok_composite _ _ _ t); auto. now apply checks_composite in H. }
      assert (Htt : In t NONCOMPOSITE).
      { unfold checks in H. destruct (mem t types) eqn:Em; [|discriminate]. apply mem_In, in_app_iff in Em. tauto. }
      rewrite NONCOMPOSITE_eq in Htt. apply in_map_iff in Htt. destruct Htt as (t' & <- & Htt). rename t' into t.
      cbn [noncomposite In] in Htt.
      repeat destruct Htt as [<- | Htt]; [.. | contradiction].
      + apply (checks_simple top ref l "boolean" [] [] []) in H; auto; [|cbn; tauto]. destruct H as (H1 & H2 & H3 & H4 & H5).
        apply (ok_simple _ _ _ "boolean"); auto. cbn; tauto.
      + eapply (checks_simple top ref l "integer") with (ks := ["minimum"; "exclusive_minimum"; "maximum"; "exclusive_maximum"]%string) in H;
          auto; [|cbn; tauto | reflexivity | reflexivity]. destruct H as (H1 & H2 & H3 & H4 & H5).
        unfold number_keys in H2. rewrite !valid_cons in H2. destruct H2 as (A & B & C & D & _).
        apply (maybe_iff _ _ _ _ j_integer) in A. apply (maybe_iff _ _ _ _ j_integer) in C. apply (maybe_iff _ _ _ _ j_boolean) in B. apply (maybe_iff _ _ _ _ j_boolean) in D.
        apply (ok_number _ _ _ "integer"); auto.
        * eapply members_perm; [|exact H4]. cbn; tauto.
        * change (Ok (validate_range l ref) = Ok None) in H5. injection H5 as H5. now apply range_iff in H5.
      + eapply (checks_simple top ref l "float") with (ks := ["minimum"; "exclusive_minimum"; "maximum"; "exclusive_maximum"]%string) in H;
          auto; [|cbn; tauto | reflexivity | reflexivity]. destruct H as (H1 & H2 & H3 & H4 & H5).
        unfold number_keys in H2. rewrite !valid_cons in H2. destruct H2 as (A & B & C & D & _).
        apply (maybe_iff _ _ _ _ j_number) in A. apply (maybe_iff _ _ _ _ j_number) in C. apply (maybe_iff _ _ _ _ j_boolean) in B. apply (maybe_iff _ _ _ _ j_boolean) in D.
        apply (ok_number _ _ _ "float"); auto.
        * eapply members_perm; [|exact H4]. cbn; tauto.
        * change (Ok (validate_range l ref) = Ok None) in H5. injection H5 as H5. now apply range_iff in H5.
      + eapply (checks_simple top ref l "string") with (ks := ["pattern"]%string) in H;
          auto; [|cbn; tauto | reflexivity | reflexivity]. destruct H as (H1 & H2 & H3 & H4 & H5).
        change (Ok (validate_pattern re_ok l ref) = Ok None) in H5. injection H5 as H5. apply pattern_iff in H5; auto.
        apply (ok_text _ _ _ "string"); auto. cbn; tauto.
      + eapply (checks_simple top ref l "path") with (ks := ["pattern"]%string) in H;
          auto; [|cbn; tauto | reflexivity | reflexivity]. destruct H as (H1 & H2 & H3 & H4 & H5).
        change (Ok (validate_pattern re_ok l ref) = Ok None) in H5. injection H5 as H5. apply pattern_iff in H5; auto.
        apply (ok_text _ _ _ "path"); auto. cbn; tauto.
      + eapply (checks_simple top ref l "date") with (ks := ["format"]%string) in H;
          auto; [|cbn; tauto | reflexivity | reflexivity]. destruct H as (H1 & H2 & H3 & H4 & H5).
        rewrite valid_cons, (maybe_iff _ _ _ _ j_string) in H2. destruct H2 as [H2 _].
        change (Ok (validate_format date_format_valid l ref) = Ok None) in H5. injection H5 as H5. apply format_iff in H5; auto.
        apply (ok_time _ _ _ "date"); auto; [|cbn; tauto].
        intros v Hv'. destruct (H5 v Hv') as (f & -> & Hf). exists f. auto.
      + eapply (checks_simple top ref l "time") with (ks := ["format"]%string) in H;
          auto; [|cbn; tauto | reflexivity | reflexivity]. destruct H as (H1 & H2 & H3 & H4 & H5).
        rewrite valid_cons, (maybe_iff _ _ _ _ j_string) in H2. destruct H2 as [H2 _].
        change (Ok (validate_format time_format_valid l ref) = Ok None) in H5. injection H5 as H5. apply format_iff in H5; auto.
        apply (ok_time _ _ _ "time"); auto; [|cbn; tauto].
        intros v Hv'. destruct (H5 v Hv') as (f & -> & Hf). exists f. auto.
      + eapply (checks_simple top ref l "datetime") with (ks := ["format"]%string) in H;
          auto; [|cbn; tauto | reflexivity | reflexivity]. destruct H as (H1 & H2 & H3 & H4 & H5).
        rewrite valid_cons, (maybe_iff _ _ _ _ j_string) in H2. destruct H2 as [H2 _].
        change (Ok (validate_format datetime_format_valid l ref) = Ok None) in H5. injection H5 as H5. apply format_iff in H5; auto.
        apply (ok_time _ _ _ "datetime"); auto; [|cbn; tauto].
        intros v Hv'. destruct (H5 v Hv') as (f & -> & Hf). exists f. auto.
      + apply (checks_simple top ref l "duration" [] [] []) in H; auto; [|cbn; tauto]. destruct H as (H1 & H2 & H3 & H4 & H5).
        apply (ok_simple _ _ _ "duration"); auto. cbn; tauto.
      + apply (checks_simple top ref l "time_zone" [] [] []) in H; auto; [|cbn; tauto]. destruct H as (H1 & H2 & H3 & H4 & H5).
        apply (ok_simple _ _ _ "time_zone"); auto. cbn; tauto.
      + eapply (checks_simple top ref l "array") with (ks := ["values"; "minimum_size"; "maximum_size"]%string) in H;
          auto; [|cbn; tauto | reflexivity | reflexivity]. destruct H as (H1 & H2 & H3 & H4 & H5).
        rewrite !valid_cons in H2. destruct H2 as (A & B & C & _). apply (maybe_iff _ _ _ _ j_size) in B. apply (maybe_iff _ _ _ _ j_size) in C.
        change (match validate_sizes l ref with Some e => Ok (Some e) | None => values end = Ok None) in H5.
        destruct (validate_sizes l ref) eqn:Es; [discriminate|]. apply sizes_iff in Es; auto. apply Hv in H5.
        destruct H5 as (x & Hx & H5). apply (ok_array _ _ _ _ x); auto.
      + eapply (checks_simple top ref l "map") with (ks := ["values"]%string) in H;
          auto; [|cbn; tauto | reflexivity | reflexivity]. destruct H as (H1 & H2 & H3 & H4 & H5).
        change (values = Ok None) in H5. apply Hv in H5.
        destruct H5 as (x & Hx & H5). apply (ok_map _ _ _ _ x); auto.
    - assert (Hobj : forall x, In (s_ "values", x) l -> type_ok re_ok names false x ->
        Forall (fun k => In k (keys l)) [s_ "values"] /\ maybe l "values" (fun v => jvalid an_object v = true)).
      { intros x Hx H. split.
        - constructor; auto. apply in_map_iff. exists (s_ "values", x). auto.
        - intros y Hy. apply j_object; [eauto|]. rewrite (unique l Hn _ _ _ Hy Hx). inversion H; eauto. }
      intros H. inversion H as [t l' H1 H2 H3 H4 El | t l' H1 H2 H3 H4 H5 H6 H7 El | t l' H1 H2 H3 H4 H5 El |
        t l' H1 H2 H3 H4 H5 El | l' v H1 H2 H3 H4 H5 H6 H7 H8 El | l' v H1 H2 H3 H4 H5 El | n l' H1 H2 H3 El]; subst l'.
      + rewrite (Hnon t H2). cbn [In] in H1. repeat destruct H1 as [<- | H1]; [.. | contradiction];
          (eapply checks_simple with (extra := []) (ks := []); [exact Hn | solve [exact H1 | exact H2] | cbn; tauto | reflexivity | reflexivity |]; repeat split; auto).
      + rewrite (Hnon t H2).
        assert (H4' : members top l ["minimum"; "exclusive_minimum"; "maximum"; "exclusive_maximum"]%string).
        { eapply members_perm; [|exact H4]. cbn; tauto. }
        destruct H1 as [(-> & A & B) | (-> & A & B)].
        * eapply checks_simple with (extra := number_keys (SInteger None))
            (ks := ["minimum"; "exclusive_minimum"; "maximum"; "exclusive_maximum"]%string); [exact Hn | solve [exact H1 | exact H2] | cbn; tauto | reflexivity | reflexivity |].
          unfold number_keys. rewrite !valid_cons. rewrite !(maybe_iff _ _ _ _ j_integer), !(maybe_iff _ _ _ _ j_boolean).
          repeat split; auto. change (Ok (validate_range l ref) = Ok None). f_equal. now apply range_iff.
        * eapply checks_simple with (extra := number_keys SNumber)
            (ks := ["minimum"; "exclusive_minimum"; "maximum"; "exclusive_maximum"]%string); [exact Hn | solve [exact H1 | exact H2] | cbn; tauto | reflexivity | reflexivity |].
          unfold number_keys. rewrite !valid_cons. rewrite !(maybe_iff _ _ _ _ j_number), !(maybe_iff _ _ _ _ j_boolean).
          repeat split; auto. change (Ok (validate_range l ref) = Ok None). f_equal. now apply range_iff.
      + rewrite (Hnon t H2). assert (H6 : maybe l "pattern" (a_text any)).
        { intros v Hv'. destruct (H5 v Hv') as (p & -> & _). exists p. split; [reflexivity | exact I]. }
        cbn [In] in H1. repeat destruct H1 as [<- | H1]; [.. | contradiction];
          (eapply checks_simple with (extra := [(s_ "pattern", any_string)]) (ks := ["pattern"]%string); [exact Hn | solve [exact H1 | exact H2] | cbn; tauto | reflexivity | reflexivity |]; rewrite valid_cons, (maybe_iff _ _ _ _ j_string); repeat split; auto;
           change (Ok (validate_pattern re_ok l ref) = Ok None); f_equal; now apply pattern_iff).
      + rewrite (Hnon t H1). assert (H6 : maybe l "format" (a_text any)).
        { intros v Hv'. destruct (H4 v Hv') as (p & -> & _). exists p. split; [reflexivity | exact I]. }
        cbn [In] in H5. repeat destruct H5 as [<- | H5]; [.. | contradiction];
          (eapply checks_simple with (extra := [(s_ "format", any_string)]) (ks := ["format"]%string); [exact Hn | solve [exact H1 | exact H2] | cbn; tauto | reflexivity | reflexivity |]; rewrite valid_cons, (maybe_iff _ _ _ _ j_string); repeat split; auto).
        * change (Ok (validate_format date_format_valid l ref) = Ok None). f_equal. apply format_iff; auto.
          intros v Hv'. destruct (H4 v Hv') as (f & -> & Hf). exists f. split; [reflexivity|]. intuition discriminate.
        * change (Ok (validate_format time_format_valid l ref) = Ok None). f_equal. apply format_iff; auto.
          intros v Hv'. destruct (H4 v Hv') as (f & -> & Hf). exists f. split; [reflexivity|]. intuition discriminate.
        * change (Ok (validate_format datetime_format_valid l ref) = Ok None). f_equal. apply format_iff; auto.
          intros v Hv'. destruct (H4 v Hv') as (f & -> & Hf). exists f. split; [reflexivity|]. intuition discriminate.
      + rewrite (Hnon _ H1). destruct (Hobj _ H7 H8) as [Hr Hm].
        eapply checks_simple with (extra := [(s_ "values", an_object); (s_ "minimum_size", SInteger (Some 0%Z)); (s_ "maximum_size", SInteger (Some 0%Z))])
          (ks := ["values"; "minimum_size"; "maximum_size"]%string); [exact Hn | solve [exact H1 | exact H2] | cbn; tauto | reflexivity | reflexivity |].
        rewrite !valid_cons, !(maybe_iff _ _ _ _ j_size). repeat split; auto.
        change (match validate_sizes l ref with Some e => Ok (Some e) | None => values end = Ok None).
        assert (Es : validate_sizes l ref = None) by now apply sizes_iff. rewrite Es. apply Hv. eauto.
      + rewrite (Hnon _ H1). destruct (Hobj _ H4 H5) as [Hr Hm].
        eapply checks_simple with (extra := [(s_ "values", an_object)]) (ks := ["values"]%string); [exact Hn | solve [exact H1 | exact H2] | cbn; tauto | reflexivity | reflexivity |].
        rewrite !valid_cons. repeat split; auto.
        change (values = Ok None). apply Hv. eauto.
      + rewrite (Ht _ H2). cbn [bind]. now apply checks_composite.
  Qed.
End Checks.
