(** Proofs about the errors of the validation. *)
From Coq Require Import String List Arith NArith ZArith QArith Bool Lia Permutation Floats.SpecFloat.
From Verif Require Import Base M_Naming M_Schema M_Dec M_Strftime M_Validate S_Conform P_Naming S_Validate P_Validate
  P_ValidateType P_ValidateDoc S_SchemaErrors.
Import ListNotations.
Open Scope list_scope.
Local Open Scope nat_scope.

(** * References *)

Lemma reference_nil b : reference b [] = b.
Proof. apply app_nil_r. Qed.
Lemma reference_cons b k p : reference b (k :: p) = reference (b ++ s_ "/" ++ k) p.
Proof. unfold reference. cbn [map concat]. now rewrite <- !app_assoc. Qed.
Lemma reference_app p : forall b q, reference b (p ++ q) = reference (reference b p) q.
Proof.
  induction p as [|k p IH]; intros b q; cbn [app]; [now rewrite reference_nil|]. now rewrite !reference_cons, IH.
Qed.
Lemma reference_join b p : join (s_ "/") (b :: p) = reference b p.
Proof.
  revert b. induction p as [|k p IH]; intros b; [now rewrite reference_nil|].
  change (join (s_ "/") (b :: k :: p)) with (b ++ s_ "/" ++ join (s_ "/") (k :: p)). rewrite IH, reference_cons.
  unfold reference. now rewrite <- !app_assoc.
Qed.
Lemma nth_ref_reference b k i : nth_ref b (s_ k) i = reference b [s_ k; dec_nat i].
Proof. unfold nth_ref. rewrite !reference_cons, reference_nil. now rewrite <- !app_assoc. Qed.

Lemma leads_app p q v w : leads p v w -> forall x, leads q w x -> leads (p ++ q) v x.
Proof. induction 1; intros x Hx; cbn [app]; [exact Hx|..]; econstructor; eauto. Qed.
Lemma leads_one k v l : In (k, v) l -> leads [k] (JObj l) v.
Proof. intros H. econstructor; [exact H | constructor]. Qed.

(** * The errors of jsonschema *)

Definition object_blame (ps : list (str * jschema)) (req : list str) (add : option jschema) (l : list (str * jval)) :
  list (list str) :=
  flat_map (fun ks : str * jschema => match lookup (fst ks) l with Some x => map (cons (fst ks)) (jblame (snd ks) x) | None => [] end) ps
  ++ flat_map (fun k => if mem k (keys l) then [] else [[]]) req
  ++ flat_map (fun e => if mem (fst e) (keys ps) then []
                        else match add with Some a => map (cons (fst e)) (jblame a (snd e)) | None => [[]] end) l.
Lemma jblame_object ps req add l : jblame (SObject ps req add) (JObj l) = object_blame ps req add l.
Proof.
  unfold object_blame. cbn [jblame]. f_equal. induction ps as [|(k, s) r IH]; [reflexivity|]. cbn [flat_map fst snd]. now rewrite <- IH.
Qed.
Definition items_blame (i : jschema) := fix of_items (n : nat) (l : list jval) : list (list str) :=
  match l with [] => [] | x :: r => map (cons (dec_nat n)) (jblame i x) ++ of_items (S n) r end.
Lemma jblame_array i l : jblame (SArray i) (JArr l) = items_blame i 0 l.
Proof. reflexivity. Qed.

Lemma jschema_ind' (P : jschema -> Prop) :
  P SAny -> (forall p, P (SString p)) -> (forall vs, P (SEnum vs)) -> P SBoolean -> (forall m, P (SInteger m)) -> P SNumber ->
  (forall i, P i -> P (SArray i)) ->
  (forall ps req add, Forall (fun ks => P (snd ks)) ps -> (forall a, add = Some a -> P a) -> P (SObject ps req add)) ->
  forall s, P s.
Proof.
  intros H1 H2 H3 H4 H5 H6 H7 H8. fix IH 1. intros [| | | | | |i|ps req add].
  - exact H1.
  - apply H2.
  - apply H3.
  - exact H4.
  - apply H5.
  - exact H6.
  - apply H7, IH.
  - apply H8.
    + induction ps as [|(k, s) r IHr]; constructor; [apply IH | exact IHr].
    + intros a E. destruct add as [a'|]; [|discriminate]. injection E as <-. apply IH.
Qed.

Lemma items_blame_In i l path : forall n, In path (items_blame i n l) ->
  exists j x p, nth_error l j = Some x /\ In p (jblame i x) /\ path = dec_nat (n + j) :: p.
Proof.
  induction l as [|x l IH]; intros n; cbn [items_blame]; [contradiction|]. intros H. apply in_app_iff in H. destruct H as [H|H].
  - apply in_map_iff in H. destruct H as (p & <- & Hp). exists 0, x, p. rewrite Nat.add_0_r. auto.
  - destruct (IH (S n) H) as (j & y & p & A & B & ->). exists (S j), y, p. rewrite Nat.add_succ_r. auto.
Qed.

(** The paths lead to parts of the value. *)
Lemma jblame_leads s : forall v path, In path (jblame s v) -> exists w, leads path v w.
Proof.
  assert (Hdef : forall b v path, In path (if b : bool then [] else [[]]) -> exists w, leads path v w).
  { intros [] v path H; cbn in H; [contradiction|]. destruct H as [<-|[]]. exists v. constructor. }
  induction s as [| | | | | |i IH|ps req add IHp IHa] using jschema_ind'; intros v path; try (destruct v; cbn [jblame]; apply Hdef).
  - destruct v; try (cbn [jblame]; apply Hdef). rewrite jblame_array. intros H. apply items_blame_In in H.
    destruct H as (j & x & p & A & B & ->). destruct (IH _ _ B) as (w & Hw). exists w. econstructor; eauto.
  - destruct v; try (cbn [jblame]; apply Hdef). rewrite jblame_object. unfold object_blame. rewrite !in_app_iff, !in_flat_map.
    intros [((k, s) & Hin & H) | [(k & _ & H) | ((k, x) & Hin & H)]]; cbn [fst snd] in H.
    + destruct (lookup k _) as [x|] eqn:E; [|contradiction]. apply in_map_iff in H. destruct H as (p & <- & Hp).
      rewrite Forall_forall in IHp. destruct (IHp _ Hin _ _ Hp) as (w & Hw). exists w. econstructor; [apply lookup_In; exact E | exact Hw].
    + revert H. apply Hdef.
    + destruct (mem k (keys ps)); [contradiction|]. destruct add as [a|].
      * apply in_map_iff in H. destruct H as (p & <- & Hp). destruct (IHa _ eq_refl _ _ Hp) as (w & Hw). exists w. econstructor; eauto.
      * destruct H as [<-|[]]. eexists. constructor.
Qed.

Lemma and_iff (A B C D : Prop) : (A <-> C) -> (B <-> D) -> (A /\ B <-> C /\ D).
Proof. tauto. Qed.

(** There are such paths just if the value is not valid. *)
Lemma map_nil {A B} (f : A -> B) l : map f l = [] <-> l = [].
Proof. destruct l; split; intros H; try reflexivity; discriminate H. Qed.
Lemma flat_map_nil {A B} (f : A -> list B) l : flat_map f l = [] <-> forall x, In x l -> f x = [].
Proof.
  induction l as [|x l IH]; cbn; [split; [intros _ y [] | reflexivity]|]. split.
  - intros H. apply app_eq_nil in H. destruct H as [H1 H2]. rewrite IH in H2. intros y [<-|Hy]; auto.
  - intros H. rewrite (H x) by auto. apply IH. auto.
Qed.
Lemma items_blame_nil i l : forall n, items_blame i n l = [] <-> forall x, In x l -> jblame i x = [].
Proof.
  induction l as [|x l IH]; intros n; cbn [items_blame]; [split; [intros _ y [] | reflexivity]|]. split.
  - intros H. apply app_eq_nil in H. destruct H as [H1 H2]. rewrite map_nil in H1. rewrite IH in H2. intros y [<-|Hy]; auto.
  - intros H. rewrite (H x) by (now left). apply IH. intros y Hy. apply H. now right.
Qed.
Lemma jblame_nil s : forall v, json_wf v -> jblame s v = [] <-> jvalid s v = true.
Proof.
  assert (Hdef : forall b : bool, (if b then [] else [[]]) = ([] : list (list str)) <-> b = true).
  { intros []; split; intros H; try reflexivity; discriminate H. }
  induction s as [| | | | | |i IH|ps req add IHp IHa] using jschema_ind'; intros v Hw; try (destruct v; cbn [jblame]; apply Hdef).
  - destruct v; try (cbn [jblame]; apply Hdef). rewrite jblame_array, items_blame_nil. cbn [jvalid]. rewrite forallb_forall.
    inversion Hw as [| | | | |? Hl|]; subst. split; intros H x Hx; apply IH; auto.
  - destruct v as [| | | | | |l]; try (cbn [jblame]; apply Hdef). apply wf_obj in Hw. destruct Hw as [Hn Hw].
    rewrite jblame_object, jvalid_object by exact Hn. unfold object_blame.
    assert (E : forall a b c : list (list str), a ++ b ++ c = [] <-> a = [] /\ b = [] /\ c = []).
    { intros a b c. split; [intros H; apply app_eq_nil in H; destruct H as [-> H]; apply app_eq_nil in H; tauto | intros (-> & -> & ->); reflexivity]. }
    rewrite E, !flat_map_nil. rewrite !Forall_forall in *. apply and_iff.
    + split.
      * intros H (k, s) Hin x Hx. specialize (H _ Hin). cbn [fst snd] in *. rewrite (In_lookup _ _ _ Hn Hx), map_nil in H.
        apply (IHp _ Hin); eauto.
      * intros H (k, s) Hin. cbn [fst snd]. destruct (lookup k l) as [x|] eqn:Ex; [|reflexivity]. apply lookup_In in Ex.
        rewrite map_nil. apply (IHp _ Hin); [eauto|]. exact (H _ Hin _ Ex).
    + apply and_iff.
      * split; intros H k Hk; specialize (H k Hk); cbn beta in *.
        -- apply mem_In. destruct (mem k (keys l)); [reflexivity | discriminate].
        -- apply mem_In in H. now rewrite H.
      * split.
        -- intros H k x Hx. specialize (H _ Hx). cbn [fst snd] in H. destruct (mem k (keys ps)) eqn:Em; [left; now apply mem_In|].
           right. destruct add as [a|]; [|discriminate]. exists a. split; [reflexivity|]. apply map_nil in H. apply (IHa _ eq_refl); eauto.
        -- intros H (k, x) Hx. cbn [fst snd]. destruct (H k x Hx) as [Hk | (a & -> & Ha)].
           ++ apply mem_In in Hk. now rewrite Hk.
           ++ destruct (mem k (keys ps)); [reflexivity|]. apply map_nil. apply (IHa _ eq_refl); eauto.
Qed.

(** * Definitions *)

Definition leaf (s : jschema) : Prop := match s with SArray _ | SObject _ _ _ => False | _ => True end.
Lemma leaf_blame s x p : In p (jblame s x) -> leaf s -> p = [] /\ jvalid s x = false.
Proof.
  assert (Hdef : forall b : bool, In p (if b then [] else [[]]) -> p = [] /\ b = false).
  { intros []; cbn; [contradiction|]. intros [<-|[]]. auto. }
  intros H Hl. revert H. destruct s; try contradiction; destruct x; cbn [jblame]; apply Hdef.
Qed.
Lemma any_blame x : jblame SAny x = [].
Proof. destruct x; reflexivity. Qed.
Lemma object_leaf x p : In p (jblame an_object x) -> p = [] /\ ~ exists l, x = JObj l.
Proof.
  unfold an_object. destruct x as [| | | | | |l];
    try (cbn; intros [<-|[]]; split; [reflexivity | intros (l' & E); discriminate]).
  rewrite jblame_object. unfold object_blame. cbn [flat_map app]. rewrite in_flat_map. intros (e & _ & H). cbn [keys map mem existsb] in H.
  rewrite any_blame in H. contradiction.
Qed.
Lemma not_valid {A : Prop} b : (b = true <-> A) -> b = false -> ~ A.
Proof. intros H E HA. apply H in HA. congruence. Qed.

Definition no_demand : list string * list string * (jval -> Prop) := ([], [], fun _ => True).
Lemma type_blame t ps req l path :
  In t simple_types -> of_type l t -> NoDup (keys l) -> lookup (s_ t) TYPE_TO_SCHEMA = Some (ps, req) ->
  In path (jblame (SObject ps req (Some SAny)) (JObj l)) ->
  (exists d k v, In d demands /\ In t (fst (fst d)) /\ In k (snd (fst d)) /\ In (s_ k, v) l /\ ~ snd d v /\ path = [s_ k]) \/
  (path = [] /\ In t ["array"; "map"]%string /\ no_member l "values").
Proof.
  intros Ht Hof Hn El. rewrite jblame_object. unfold object_blame. rewrite !in_app_iff, !in_flat_map.
  intros [((k, s) & Hin & H) | [(k & Hr & H) | ((k, x) & Hin & H)]]; cbn [fst snd] in H.
  - destruct (lookup k l) as [x|] eqn:Ex; [|contradiction]. apply lookup_In in Ex. apply in_map_iff in H. destruct H as (p & <- & Hp). left.
    cbn [simple_types In] in Ht.
    assert (Hs : forall d : list string * list string * (jval -> Prop), forall k', k = s_ k' -> In d demands -> In t (fst (fst d)) -> In k' (snd (fst d)) ->
      p = [] -> ~ snd d x -> exists d k0 v, In d demands /\ In t (fst (fst d)) /\ In k0 (snd (fst d)) /\ In (s_ k0, v) l /\ ~ snd d v /\ k :: p = [s_ k0]).
    { intros d k' -> H1 H2 H3 -> H4. exists d, k', x. auto 10. }
    assert (Htype : k = s_ "type" -> leaf s -> jvalid s x = jvalid any_string x -> False).
    { intros -> Hl E. rewrite (unique l Hn _ _ _ Ex Hof) in E, Hp. destruct (leaf_blame _ _ _ Hp Hl) as [_ E']. rewrite E' in E. discriminate. }
    Local Ltac pick Hs n key :=
      apply (Hs (nth n demands no_demand) key); [reflexivity | cbn; tauto | cbn; tauto | cbn; tauto | |]; cbn [demands nth snd fst].
    Local Ltac by_leaf Hp J :=
      let E := fresh in let E' := fresh in
      destruct (leaf_blame _ _ _ Hp I) as [E E']; first [exact E | exact (not_valid _ (J _) E')].
    repeat destruct Ht as [<-|Ht]; [.. | contradiction];
      injection El as <- <-; cbn [base_keys number_keys app In] in Hin;
      repeat destruct Hin as [Hin|Hin]; try contradiction; injection Hin as <- <-;
      try (exfalso; exact (Htype eq_refl I eq_refl));
      first [ pick Hs 0 "description"%string; by_leaf Hp j_string
            | pick Hs 1 "minimum"%string; by_leaf Hp j_integer
            | pick Hs 1 "maximum"%string; by_leaf Hp j_integer
            | pick Hs 2 "minimum"%string; by_leaf Hp j_number
            | pick Hs 2 "maximum"%string; by_leaf Hp j_number
            | pick Hs 3 "exclusive_minimum"%string; by_leaf Hp j_boolean
            | pick Hs 3 "exclusive_maximum"%string; by_leaf Hp j_boolean
            | pick Hs 4 "pattern"%string; by_leaf Hp j_string
            | pick Hs 5 "format"%string; by_leaf Hp j_string
            | pick Hs 6 "values"%string; apply (object_leaf _ _ Hp)
            | pick Hs 7 "minimum_size"%string; by_leaf Hp j_size
            | pick Hs 7 "maximum_size"%string; by_leaf Hp j_size ].
  - right. destruct (mem k (keys l)) eqn:Em; [contradiction|]. destruct H as [<-|[]]. apply mem_not_In in Em.
    cbn [simple_types In] in Ht.
    repeat destruct Ht as [<-|Ht]; [.. | contradiction]; injection El as <- <-; cbn [In] in Hr; try contradiction;
      destruct Hr as [<-|[]]; (split; [reflexivity | split; [cbn; tauto | exact Em]]).
  - destruct (mem k (keys ps)); [contradiction|]. rewrite any_blame in H. contradiction.
Qed.

(** The references of the error lead to places of [v] at which there is what the error says, but
    for a slash at the end if there should be the definition of the values. *)
Definition tells (v : jval) (ref : str) (bad : list str -> skind -> Prop) (e : serr) : Prop :=
  se_refs e <> [] /\
  forall r, In r (se_refs e) -> exists path w, bad path (se_kind e) /\ leads path v w /\
    (r = reference ref path \/
     exists paths l, se_kind e = ETypeSchema paths /\ w = JObj l /\ no_member l "values" /\ r = reference ref path ++ s_ "/").

Lemma tells_at v ref (bad : list str -> skind -> Prop) path kind w r :
  bad path kind -> leads path v w -> r = reference ref path -> se_refs (SErr r kind) = [r] -> tells v ref bad (SErr r kind).
Proof.
  intros Hb Hl -> E. split; rewrite E; [discriminate|]. intros r [<-|[]]. exists path, w. auto.
Qed.
Lemma tells_below v ref (bad bad' : list str -> skind -> Prop) e pre u :
  tells u (reference ref pre) bad e -> leads pre v u -> (forall path, bad path (se_kind e) -> bad' (pre ++ path) (se_kind e)) ->
  tells v ref bad' e.
Proof.
  intros [Hne H] Hl Hb. split; [exact Hne|]. intros r Hr. destruct (H r Hr) as (path & w & A & B & C).
  exists (pre ++ path), w. split; [auto|]. split; [eapply leads_app; eauto|]. now rewrite reference_app.
Qed.

Section TypeErrors.
  Variables (re_ok : str -> bool) (ordered : bool) (types : list str) (is_type : str -> Prop).
  Hypothesis types_ok : forall t, In t types <-> is_type t.
  Notation bad := (bad_definition re_ok ordered is_type).

  Lemma range_error l ref e t top : NoDup (keys l) -> of_type l t -> In t ["integer"; "float"]%string ->
    validate_range l ref = Some e -> tells (JObj l) ref (bad top (JObj l)) e.
  Proof.
    intros Hn Ht Hin. unfold validate_range.
    destruct (lookup (s_ "minimum") l) as [a|] eqn:Ea; [|discriminate].
    destruct (lookup (s_ "maximum") l) as [b|] eqn:Eb; [|discriminate]. apply lookup_In in Ea, Eb.
    destruct (num_gt a b) eqn:Eg.
    - intros [= <-]. eapply tells_at; [eapply bad_bounds; eauto; now apply num_gt_spec | constructor | now rewrite reference_nil | reflexivity].
    - assert (H : forall c : bool, In (s_ "exclusive_minimum", JBool true) l \/ In (s_ "exclusive_maximum", JBool true) l ->
          (if num_eq a b then Some (SErr ref EEmptyRange) else None) = Some e -> tells (JObj l) ref (bad top (JObj l)) e).
      { intros _ He. destruct (num_eq a b) eqn:Ee; [|discriminate]. intros [= <-].
        eapply tells_at; [eapply bad_range; eauto; now apply num_eq_spec | constructor | now rewrite reference_nil | reflexivity]. }
      destruct (flag (s_ "exclusive_minimum") l) eqn:E1, (flag (s_ "exclusive_maximum") l) eqn:E2; cbn [andb negb]; try discriminate;
        apply (H true); rewrite <- !(flag_iff l Hn), ?E1, ?E2; auto.
  Qed.

  Lemma type_error v : forall top ref e, json_wf v ->
    (top = true -> forall l, v = JObj l -> In (s_ "type") (keys l)) ->
    validate_type re_ok ordered top types ref v = Ok (Some e) -> tells v ref (bad top v) e.
  Proof.
    induction v as [| | | | |l IH|l IH] using jval_ind'; intros top ref e Hw Hhas; try discriminate.
    apply wf_obj in Hw. destruct Hw as [Hn Hw]. rewrite validate_type_eq.
    destruct (if top && ordered then validate_key_order l ref else Ok None) as [[o|]|] eqn:Eo; cbn [bind]; try discriminate.
    { intros [= <-]. destruct (top && ordered) eqn:Et; [|discriminate]. apply andb_prop in Et. destruct Et as [-> Ho].
      unfold validate_key_order in Eo. destruct l as [|(k0, v0) r]; [discriminate|]. cbn [keys map fst] in Eo.
      destruct (str_eqb k0 (s_ "type")) eqn:E0; cbn [negb] in Eo.
      - destruct (mem (s_ "description") (k0 :: map fst r)) eqn:Em; [|discriminate]. destruct r as [|(k1, v1) r]; [discriminate|].
        cbn [map fst] in Eo, Em. destruct (str_eqb k1 (s_ "description")) eqn:E1; [discriminate|]. injection Eo as <-.
        apply mem_In in Em. destruct (keys_value (s_ "description") ((k0, v0) :: (k1, v1) :: r) Em) as (w & Hin).
        eapply tells_at; [eapply bad_second; eauto; intros ->; now rewrite str_eqb_refl in E1 | eapply leads_one; exact Hin | | reflexivity].
        rewrite reference_cons, reference_nil. reflexivity.
      - injection Eo as <-. destruct (keys_value _ _ (Hhas eq_refl _ eq_refl)) as (w & Hin).
        eapply tells_at; [eapply bad_first; eauto; intros ->; now rewrite str_eqb_refl in E0 | eapply leads_one; exact Hin | | reflexivity].
        rewrite reference_cons, reference_nil. reflexivity. }
    unfold M_Validate.get. destruct (lookup (s_ "type") l) as [t|] eqn:El; [|discriminate]. cbn [bind]. apply lookup_In in El.
    assert (Hty : forall r, (forall n, t = JStr n -> ~ is_type n) -> Ok (Some (SErr (ref ++ s_ "/type") EInvalidType)) = Ok (Some r) ->
      tells (JObj l) ref (bad top (JObj l)) r).
    { intros r H [= <-]. eapply tells_at; [eapply bad_type; eauto | eapply leads_one; exact El | | reflexivity]. now rewrite reference_cons, reference_nil. }
    destruct t as [| | | |t| |]; try discriminate; try (apply Hty; intros n [=]).
    unfold checks. destruct (mem t types) eqn:Em; cbn [negb].
    2:{ apply Hty. intros n [= <-]. rewrite <- types_ok. now apply mem_not_In. }
    set (values := match lookup (s_ "values") l with Some _ => _ | None => _ end). cbv zeta.
    assert (Hsch : forall ps req, lookup t TYPE_TO_SCHEMA = Some (ps, req) -> exists t', In t' simple_types /\ t = s_ t').
    { intros ps req H. apply lookup_In in H. assert (Hk : In t (keys TYPE_TO_SCHEMA)) by (apply in_map_iff; eexists; split; [|exact H]; reflexivity).
      apply TYPE_TO_SCHEMA_keys in Hk. change NONCOMPOSITE with (map s_ simple_types) in Hk. apply in_map_iff in Hk. destruct Hk as (t' & <- & Hk). eauto. }
    destruct (match lookup t TYPE_TO_SCHEMA with Some (ps, req) => jvalid (SObject ps req (Some SAny)) (JObj l) | None => true end) eqn:Ej.
    2:{ destruct (lookup t TYPE_TO_SCHEMA) as [(ps, req)|] eqn:Es; [|discriminate]. destruct (Hsch _ _ eq_refl) as (t' & Hin & ->).
      assert (Hne : jblame (SObject ps req (Some SAny)) (JObj l) <> []).
      { intros H. apply jblame_nil in H; [congruence|]. constructor; auto. }
      assert (Hty' := fun path => type_blame t' ps req l path Hin El Hn Es).
      set (paths := jblame (SObject ps req (Some SAny)) (JObj l)) in *. clearbody paths.
      intros [= <-]. split.
      - cbn [se_refs se_kind]. intros H. apply map_nil in H. contradiction.
      - cbn [se_refs se_kind se_ref]. intros r Hr. apply in_map_iff in Hr. destruct Hr as (path & <- & Hp).
        destruct (Hty' path Hp) as [(((ts, ks), P) & k & x & A & B & C & D & F & ->) | (-> & A & B)].
        + exists [s_ k], x. split; [eapply bad_member; eauto|]. split; [now apply leads_one|]. left. now rewrite reference_cons, reference_nil.
        + exists [], (JObj l). split; [eapply bad_missing; eauto|]. split; [constructor|]. right. exists paths, l.
          rewrite reference_nil. auto. }
    destruct (unexpected _ l) as [k|] eqn:Eu.
    { intros [= <-]. eapply tells_at; [eapply bad_extra; [exact El| |] | constructor | now rewrite reference_nil | reflexivity].
      - unfold unexpected in Eu. apply find_some in Eu. tauto.
      - unfold unexpected in Eu. apply find_some in Eu. destruct Eu as [_ Eu]. apply negb_true_iff, mem_not_In in Eu. intros H. apply Eu. clear Eu.
        unfold expected_keys. rewrite !in_app_iff. destruct H as [H | [[-> H] | (ts & ks & H1 & H2 & H3)]].
        + left. exact H.
        + right. left. revert H. cbn. tauto.
        + right. right. cbn [type_members In] in H1.
          repeat destruct H1 as [H1|H1]; try contradiction; injection H1 as <- <-; cbn [map In] in H2;
            repeat destruct H2 as [<-|H2]; try contradiction; revert H3; cbn; tauto. }
    unfold logic.
    assert (Hof : forall t', str_eqb t (s_ t') = true -> of_type l t').
    { intros t' H. apply str_eqb_eq in H. subst t. exact El. }
    assert (Hpat : forall t', str_eqb t (s_ t') = true -> In t' ["string"; "path"]%string -> Ok (validate_pattern re_ok l ref) = Ok (Some e) ->
      tells (JObj l) ref (bad top (JObj l)) e).
    { intros t' E Hin H. assert (Ht := Hof _ E). apply str_eqb_eq in E. subst t. injection H as H.
      assert (Hm : maybe l "pattern" (a_text any)).
      { apply (maybe_iff _ _ _ _ j_string). cbn [In] in Hin.
        destruct Hin as [<-|[<-|[]]]; (apply jvalid_object in Ej; [|exact Hn]; destruct Ej as [Ej _]; cbn [base_keys app] in Ej; rewrite !valid_cons in Ej; apply Ej). }
      unfold validate_pattern in H. destruct (lookup (s_ "pattern") l) as [w|] eqn:Ew; [|discriminate]. apply lookup_In in Ew.
      destruct (Hm _ Ew) as (p & -> & _). destruct (re_ok p) eqn:Er; [discriminate|]. injection H as <-.
      eapply tells_at; [eapply bad_pattern; eauto | eapply leads_one; exact Ew | | reflexivity]. now rewrite reference_cons, reference_nil. }
    assert (Hfmt : forall t' valid, str_eqb t (s_ t') = true ->
      (forall f, valid f = false -> (t' = "date"%string /\ date_format_valid f = false) \/
        (t' = "time"%string /\ time_format_valid f = false) \/ (t' = "datetime"%string /\ datetime_format_valid f = false)) ->
      Ok (validate_format valid l ref) = Ok (Some e) -> tells (JObj l) ref (bad top (JObj l)) e).
    { intros t' valid E Hin H. assert (Ht := Hof _ E). injection H as H.
      unfold validate_format in H. destruct (lookup (s_ "format") l) as [[| | | |f| |]|] eqn:Ew; try discriminate. apply lookup_In in Ew.
      destruct (valid f) eqn:Er; [discriminate|]. injection H as <-.
      eapply tells_at; [eapply bad_format; eauto | eapply leads_one; exact Ew | | reflexivity]. now rewrite reference_cons, reference_nil. }
    assert (Hval : forall t', str_eqb t (s_ t') = true -> In t' ["array"; "map"]%string -> values = Ok (Some e) ->
      tells (JObj l) ref (bad top (JObj l)) e).
    { intros t' E Hin H. assert (Ht := Hof _ E). subst values. destruct (lookup (s_ "values") l) as [x|] eqn:Ex; [|discriminate].
      apply lookup_In in Ex. rewrite Forall_forall in IH. apply (IH _ Ex) in H; [|eauto | discriminate]. cbn [snd] in H.
      eapply tells_below; [|eapply leads_one; exact Ex|].
      - rewrite reference_cons, reference_nil. exact H.
      - intros path Hb. cbn [app]. eapply bad_values; eauto. }
    destruct (str_eqb t (s_ "boolean")) eqn:E0; [discriminate|].
    destruct (str_eqb t (s_ "integer")) eqn:E1.
    { intros H. injection H as H. eapply range_error; eauto. cbn; tauto. }
    destruct (str_eqb t (s_ "float")) eqn:E2.
    { intros H. injection H as H. eapply range_error; eauto. cbn; tauto. }
    destruct (str_eqb t (s_ "string")) eqn:E3; [apply (Hpat _ E3); cbn; tauto|].
    destruct (str_eqb t (s_ "path")) eqn:E4; [apply (Hpat _ E4); cbn; tauto|].
    destruct (str_eqb t (s_ "date")) eqn:E5; [apply (Hfmt _ _ E5); tauto|].
    destruct (str_eqb t (s_ "time")) eqn:E6; [apply (Hfmt _ _ E6); tauto|].
    destruct (str_eqb t (s_ "datetime")) eqn:E7; [apply (Hfmt _ _ E7); tauto|].
    destruct (str_eqb t (s_ "duration")) eqn:E8; [discriminate|].
    destruct (str_eqb t (s_ "time_zone")) eqn:E9; [discriminate|].
    destruct (str_eqb t (s_ "array")) eqn:E10.
    { destruct (validate_sizes l ref) as [e'|] eqn:Es; [|apply (Hval _ E10); cbn; tauto].
      intros [= ->]. assert (Ht := Hof _ E10). apply str_eqb_eq in E10. subst t.
      assert (Hm : maybe l "minimum_size" a_size /\ maybe l "maximum_size" a_size).
      { rewrite <- !(maybe_iff _ _ _ _ j_size). apply jvalid_object in Ej; [|exact Hn]. destruct Ej as [Ej _]. cbn [base_keys app] in Ej.
        rewrite !valid_cons in Ej. tauto. }
      unfold validate_sizes in Es. destruct (lookup (s_ "minimum_size") l) as [a|] eqn:Ea; [|discriminate].
      destruct (lookup (s_ "maximum_size") l) as [b|] eqn:Eb; [|discriminate]. apply lookup_In in Ea, Eb.
      destruct (proj1 Hm _ Ea) as (za & -> & _), (proj2 Hm _ Eb) as (zb & -> & _).
      destruct (num_gt (JInt za) (JInt zb)) eqn:Eg; [|discriminate]. injection Es as <-. apply num_gt_spec in Eg. cbn in Eg.
      eapply tells_at; [eapply bad_sizes; eauto; rewrite Zlt_Qlt; exact Eg | eapply leads_one; exact Ea | | reflexivity]. now rewrite reference_cons, reference_nil. }
    destruct (str_eqb t (s_ "map")) eqn:E11; [apply (Hval _ E11); cbn; tauto|].
    destruct (mem t NONCOMPOSITE); discriminate.
  Qed.
End TypeErrors.

(** ** Every fault is noticed *)

Lemma s_inj a b : s_ a = s_ b -> a = b.
Proof.
  unfold s_. intros H.
  assert (E : list_ascii_of_string a = list_ascii_of_string b).
  { revert H. generalize (list_ascii_of_string a) as x, (list_ascii_of_string b) as y. induction x as [|c x IH]; intros [|d y] H; try discriminate; [reflexivity|].
    injection H as Hc Hx. f_equal; [|auto]. rewrite <- (Ascii.ascii_N_embedding c), <- (Ascii.ascii_N_embedding d). now rewrite Hc. }
  rewrite <- (string_of_list_ascii_of_string a), <- (string_of_list_ascii_of_string b). now rewrite E.
Qed.

Section TypeFaults.
  Variables (re_ok : str -> bool) (ordered : bool) (names : list str) (is_type : str -> Prop).
  Hypothesis names_ok : forall n, In n names -> ~ In n NONCOMPOSITE.
  Hypothesis types_ok : forall t, In t (NONCOMPOSITE ++ names) <-> is_type t.
  Notation bad := (bad_definition re_ok ordered is_type).

  Lemma simple_of t l n : of_type l t -> NoDup (keys l) -> In (s_ "type", JStr n) l -> n = s_ t.
  Proof. intros H Hn H'. assert (E := unique l Hn _ _ _ H H'). congruence. Qed.
  Lemma not_composite t l n : In t simple_types -> of_type l t -> NoDup (keys l) -> In n names -> In (s_ "type", JStr n) l -> False.
  Proof.
    intros Hs H Hn Hnm H'. apply (simple_of t) in H'; auto. subst n. apply (names_ok _ Hnm).
    change NONCOMPOSITE with (map s_ simple_types). now apply in_map.
  Qed.

  Lemma ok_members top l n k : NoDup (keys l) -> type_ok re_ok names top (JObj l) -> In (s_ "type", JStr n) l -> In k (keys l) -> may_state top n k.
  Proof.
    intros Hn H Ht Hk. unfold may_state.
    assert (Hm : forall t extra, members top l extra -> of_type l t -> (forall x, In x extra -> exists ts ks, In (ts, ks) type_members /\ In t ts /\ In x ks) ->
      In k (map s_ ["type"; "description"]%string) \/ (top = true /\ In k (map s_ ["json"; "optional"]%string)) \/
      exists ts ks, In (ts, ks) type_members /\ In n (map s_ ts) /\ In k (map s_ ks)).
    { intros t extra Hm Ho He. apply (simple_of t) in Ht; auto. subst n. specialize (Hm k Hk). rewrite !map_app, !in_app_iff in Hm.
      destruct Hm as [Hm|[Hm|Hm]]; [now left | | ].
      - destruct top; [right; left; auto | contradiction].
      - right. right. apply in_map_iff in Hm. destruct Hm as (x & <- & Hx). destruct (He x Hx) as (ts & ks & A & B & C).
        exists ts, ks. split; [exact A|]. split; now apply in_map. }
    Local Ltac state_in ts ks := exists ts, ks; (split; [cbn; tauto|]); (split; [cbn in *; intuition (subst; auto)|cbn in *; intuition]).
    inversion H as [t ? A B C D|t ? A B C D|t ? A B C D|t ? B C D ? A|? v B C D|? v B C D|m ? A B D]; subst.
    - eapply Hm; eauto. intros x [].
    - eapply Hm; eauto. intros x Hx. exists ["integer"; "float"]%string, ["minimum"; "maximum"; "exclusive_minimum"; "exclusive_maximum"]%string.
      split; [cbn; tauto|]. split; [|exact Hx]. cbn. destruct A as [(-> & _)|(-> & _)]; tauto.
    - eapply Hm; eauto. intros x Hx. eexists _, _. split; [right; left; reflexivity|]. auto.
    - eapply Hm; eauto. intros x Hx. eexists _, _. split; [right; right; left; reflexivity|]. auto.
    - eapply Hm; eauto. intros x Hx. eexists _, _. split; [right; right; right; left; reflexivity|]. cbn; auto.
    - eapply Hm; eauto. intros x Hx. eexists _, _. split; [right; right; right; right; left; reflexivity|]. cbn; auto.
    - specialize (D k Hk). rewrite app_nil_r, map_app, in_app_iff in D. destruct D as [D|D]; [auto|]. destruct top; [auto | contradiction].
  Qed.

  Definition facts (l : list (str * jval)) (t : string) : Prop :=
    (forall ts ks P k v, In (ts, ks, P) demands -> In t ts -> In k ks -> In (s_ k, v) l -> P v) /\
    (In t ["array"; "map"]%string -> exists v, In (s_ "values", v) l /\ type_ok re_ok names false v) /\
    (In t ["integer"; "float"]%string -> range_stated l) /\
    (In t ["string"; "path"]%string -> maybe l "pattern" (a_text (fun p => re_ok p = true))) /\
    (In t ["date"; "time"; "datetime"]%string -> maybe l "format" (a_text (fun f =>
          (t = "date"%string /\ date_format_valid f = true) \/
          (t = "time"%string /\ time_format_valid f = true) \/
          (t = "datetime"%string /\ datetime_format_valid f = true)))) /\
    (t = "array"%string -> sizes_stated l).
  Lemma ok_facts top l t : NoDup (keys l) -> type_ok re_ok names top (JObj l) -> of_type l t -> In t simple_types -> facts l t.
  Proof.
    intros Hn H Ht Hs.
    assert (Hsame : forall t', of_type l t' -> t' = t).
    { intros t' H'. assert (E := unique l Hn _ _ _ H' Ht). injection E as E. now apply s_inj. }
    assert (Hd : forall (ds : list (list string * list string * (jval -> Prop))),
      Forall (fun d => In t (fst (fst d)) -> Forall (fun k => maybe l k (snd d)) (snd (fst d))) ds ->
      forall ts ks P k v, In (ts, ks, P) ds -> In t ts -> In k ks -> In (s_ k, v) l -> P v).
    { intros ds Hds ts ks P k v Hin A B C. rewrite Forall_forall in Hds. specialize (Hds _ Hin A). cbn [fst snd] in Hds.
      rewrite Forall_forall in Hds. exact (Hds k B v C). }
    assert (Hweak : forall k P, maybe l k (a_text P) -> maybe l k (a_text any)).
    { intros k P HP v Hv. destruct (HP v Hv) as (s & -> & _). exists s. split; [reflexivity | exact I]. }
    assert (Hobj : forall v, In (s_ "values", v) l -> type_ok re_ok names false v -> maybe l "values" (fun v => exists l, v = JObj l)).
    { intros v Hv Hv' w Hw. rewrite (unique l Hn _ _ _ Hw Hv). inversion Hv'; eauto. }
    Local Ltac no := let H := fresh in intros H; exfalso; cbn in H; repeat (destruct H as [H|H]); solve [discriminate H | contradiction].
    Local Ltac demand := repeat first [ apply Forall_nil | apply Forall_cons | progress cbn [fst snd] | solve [no] | intros _ ];
      first [ assumption | no | solve [eauto] | idtac ].
    inversion H as [t' ? A B C D|t' ? A B C D E F G|t' ? A B C D E|t' ? B C D E A|? v B C D E F G K L|? v B C D K L|m ? A B D]; subst;
      try (assert (E' := Hsame _ B); try subst t'; try subst t).
    - cbn [In] in A. repeat destruct A as [<-|A]; try contradiction;
        (split; [apply Hd; unfold demands, simple_types; demand|]; refine (conj _ (conj _ (conj _ (conj _ _)))); no).
    - destruct A as [(-> & A1 & A2)|(-> & A1 & A2)]; (split; [apply Hd; unfold demands, simple_types; demand|]; refine (conj _ (conj _ (conj _ (conj _ _)))); try no; auto).
    - cbn [In] in A. repeat destruct A as [<-|A]; try contradiction;
        (split; [apply Hd; unfold demands, simple_types; demand|]; refine (conj _ (conj _ (conj _ (conj _ _)))); try no; auto).
    - cbn [In] in A. repeat destruct A as [<-|A]; try contradiction;
        (split; [apply Hd; unfold demands, simple_types; demand|]; refine (conj _ (conj _ (conj _ (conj _ _)))); try no; auto).
    - split; [apply Hd; unfold demands, simple_types; demand|]; refine (conj _ (conj _ (conj _ (conj _ _)))); try no; eauto.
    - split; [apply Hd; unfold demands, simple_types; demand|]; refine (conj _ (conj _ (conj _ (conj _ _)))); try no; eauto.
    - exfalso. eapply not_composite; eauto.
  Qed.

  Lemma bad_not_ok v : forall top path kind, json_wf v -> bad top v path kind ->
    (top = true -> order_ok ordered true v) -> type_ok re_ok names top v -> False.
  Proof.
    intros top path kind Hw Hb. revert Hw.
    induction Hb as [l k v r Ho El Hk|l a k v r Ho El Hk Hd|top l t Ht Hno|top l t ts ks P k v paths Hof Hin Ht Hk Hv HP|top l t paths Hof Ht Hno|
                     top l t k Ht Hk Hno|top l t a b Hof Ht Ha Hb' Hlt|top l t a b Hof Ht Ha Hb' Heq Hex|top l t p Hof Ht Hp Hre|top l t f Hof Hf Hfv|
                     top l a b Hof Ha Hb' Hlt|top l t v path kind Hof Ht Hv Hb IH]; intros Hw Hord Hok; apply wf_obj in Hw; destruct Hw as [Hn Hw].
    - destruct (Hord eq_refl) as (l' & ref & [= <-] & H); [now rewrite Ho|]. subst l. unfold validate_key_order in H. cbn [keys map fst] in H.
      assert (E : str_eqb k (s_ "type") = false) by now apply str_eqb_neq. rewrite E in H. discriminate.
    - destruct (Hord eq_refl) as (l' & ref & [= <-] & H); [now rewrite Ho|]. subst l. unfold validate_key_order in H.
      apply mem_In in Hd. rewrite Hd in H. destruct a as (k0, v0). cbn [keys map fst] in H.
      assert (E : str_eqb k (s_ "description") = false) by now apply str_eqb_neq. rewrite E in H.
      destruct (negb _); discriminate.
    - destruct (type_ok_type re_ok names top l Hok) as (n & Hn'). assert (E := unique l Hn _ _ _ Ht Hn'). subst t.
      apply (Hno n eq_refl). apply types_ok. apply in_app_iff.
      inversion Hok as [t' ? A B C D|t' ? A B C D E F G|t' ? A B C D E|t' ? B C D E A|? v B C D E F G K L|? v B C D K L|m ? A B D]; subst;
        try (apply (simple_of _ _ n) in B; auto; subst n; left; rewrite NONCOMPOSITE_eq; apply in_map).
      + cbn in A. cbn. tauto.
      + cbn. destruct A as [(-> & _)|(-> & _)]; tauto.
      + cbn in A. cbn. tauto.
      + cbn in A. cbn. tauto.
      + cbn. tauto.
      + cbn. tauto.
      + right. assert (E := unique l Hn _ _ _ B Hn'). injection E as <-. exact A.
    - apply HP. assert (Hs : In t simple_types).
      { cbn [demands In] in Hin. repeat destruct Hin as [Hin|Hin]; try contradiction; injection Hin as <- <- <-; revert Ht; cbn; tauto. }
      destruct (ok_facts top l t Hn Hok Hof Hs) as [F _]. eapply F; eauto.
    - assert (Hs : In t simple_types) by (revert Ht; cbn; tauto).
      destruct (ok_facts top l t Hn Hok Hof Hs) as (_ & F & _). destruct (F Ht) as (v & Hv & _). apply Hno. apply in_map_iff. now exists (s_ "values", v).
    - apply Hno. eapply ok_members; eauto.
    - assert (Hs : In t simple_types) by (revert Ht; cbn; tauto).
      destruct (ok_facts top l t Hn Hok Hof Hs) as (_ & _ & F & _). destruct (F Ht _ _ Ha Hb') as [F' _]. auto.
    - assert (Hs : In t simple_types) by (revert Ht; cbn; tauto).
      destruct (ok_facts top l t Hn Hok Hof Hs) as (_ & _ & F & _). destruct (F Ht _ _ Ha Hb') as [_ F']. exact (F' Hex Heq).
    - assert (Hs : In t simple_types) by (revert Ht; cbn; tauto).
      destruct (ok_facts top l t Hn Hok Hof Hs) as (_ & _ & _ & F & _). destruct (F Ht _ Hp) as (s & [= <-] & F'). congruence.
    - assert (Ht : In t ["date"; "time"; "datetime"]%string) by (cbn; destruct Hfv as [[-> _]|[[-> _]|[-> _]]]; tauto).
      assert (Hs : In t simple_types) by (revert Ht; cbn; tauto).
      destruct (ok_facts top l t Hn Hok Hof Hs) as (_ & _ & _ & _ & F & _). destruct (F Ht _ Hf) as (s & [= <-] & F').
      destruct Hfv as [[-> E]|[[-> E]|[-> E]]]; destruct F' as [[E1 E2]|[[E1 E2]|[E1 E2]]]; try discriminate; congruence.
    - assert (Hs : In "array"%string simple_types) by (cbn; tauto).
      destruct (ok_facts top l _ Hn Hok Hof Hs) as (_ & _ & _ & _ & _ & F). specialize (F eq_refl _ _ Ha Hb'). apply (Z.lt_irrefl a). eapply Z.le_lt_trans; eauto.
    - assert (Hs : In t simple_types) by (revert Ht; cbn; tauto).
      destruct (ok_facts top l t Hn Hok Hof Hs) as (_ & F & _). destruct (F Ht) as (w & Hw' & Hok').
      rewrite (unique l Hn _ _ _ Hw' Hv) in Hok'. apply IH; auto; [eauto | discriminate].
  Qed.

  (** A definition is without faults just if there is no error. *)
  Lemma bad_error v ref path kind : json_wf v -> bad true v path kind ->
    validate_type re_ok ordered true (NONCOMPOSITE ++ names) ref v <> Ok None.
  Proof.
    intros Hw Hb H. apply (validate_type_ok re_ok ordered names names_ok) in H; auto. destruct H as [H1 H2].
    eapply bad_not_ok; eauto.
  Qed.
End TypeFaults.
