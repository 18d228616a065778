(** Proofs about the validation of schemas: a document is accepted iff it is a
    document in the sense of S_Validate. *)
From Verif Require Import Base M_Naming M_Schema M_Dec M_Strftime M_Validate S_Conform P_Naming S_Validate.
From Coq Require Import String List Arith NArith ZArith QArith Qpower Bool Lia Permutation Floats.SpecFloat.
Import ListNotations.
Open Scope list_scope.
Local Open Scope nat_scope.

(** * Shapes *)

Lemma lower_small c : is_lower c = true <-> small c.
Proof. unfold is_lower, small. rewrite andb_true_iff, !N.leb_le. tauto. Qed.
Lemma upper_capital c : is_upper c = true <-> capital c.
Proof. unfold is_upper, capital. rewrite andb_true_iff, !N.leb_le. tauto. Qed.
Lemma digit_digit c : is_digit c = true <-> digit c.
Proof. unfold is_digit, digit. rewrite andb_true_iff, !N.leb_le. tauto. Qed.
Lemma alpha_letter c : is_alpha c = true <-> letter c.
Proof. unfold is_alpha, letter. rewrite orb_true_iff, lower_small, upper_capital. tauto. Qed.
Lemma word_word c : is_word c = true <-> word c.
Proof.
  unfold is_word, is_alnum, word. rewrite !orb_true_iff, alpha_letter, digit_digit, N.eqb_eq. tauto.
Qed.
Lemma words l : forallb is_word l = true <-> forall x, In x l -> word x.
Proof.
  rewrite forallb_forall. split; intros H x Hx; apply word_word; auto.
Qed.

Lemma lax_iff p (P : str -> Prop) (E : forall s, p s = true <-> P s) s : py_dollar p s = true <-> lax P s.
Proof.
  unfold py_dollar, lax. rewrite orb_true_iff, E. apply or_iff_compat_l.
  destruct (rev s) as [|c r] eqn:Er.
  { split; [discriminate|]. intros (q & -> & _). rewrite rev_app_distr in Er. discriminate. }
  assert (Es : s = rev r ++ [c]) by (rewrite <- (rev_involutive s), Er; reflexivity).
  destruct (N.eq_dec c 10) as [-> | Hc].
  - rewrite E. split.
    + intros H. exists (rev r). auto.
    + intros (q & Eq & Hq). rewrite Es in Eq. apply app_inj_tail in Eq. destruct Eq as [-> _]. exact Hq.
  - assert (Ef : (match c with 10%N => p (rev r) | _ => false end) = false).
    { destruct c as [|q]; auto. do 4 (destruct q as [q|q|]; auto). exfalso; apply Hc; reflexivity. }
    rewrite Ef. split; [discriminate|]. intros (q & Eq & Hq). rewrite Es in Eq. apply app_inj_tail in Eq.
    destruct Eq as [_ ->]. congruence.
Qed.

Lemma ident_identifier (f : chr -> bool) (F : chr -> Prop) s : (forall c, f c = true <-> F c) ->
  (forall c, f c = true -> is_alnum c = true) ->
  ident_shape f s = true <-> identifier F s.
Proof.
  intros HF Hn. unfold ident_shape, identifier. destruct s as [|c r].
  { split; [discriminate|]. intros (c & r & E & _). discriminate. }
  rewrite !andb_true_iff, HF, words. split.
  - intros [[H1 H2] H3]. exists c, r. repeat split; auto.
    intros q E. rewrite E, last_snoc in H3. discriminate.
  - intros (c' & r' & E & H1 & H2 & H3). injection E as <- <-. repeat split; auto.
    destruct (exists_last (l := c :: r)) as (q & x & E); [discriminate|].
    rewrite E, last_snoc. specialize (H3 q). rewrite E in H3.
    assert (Hx : word x \/ is_alnum x = true).
    { destruct q as [|y q].
      - cbn in E. injection E as <- _. right. apply Hn, HF, H1.
      - cbn in E. injection E as <- E'. left. apply H2. rewrite E'. apply in_app_iff; right; left; auto. }
    destruct Hx as [Hx | Hx]; [|exact Hx]. apply word_word in Hx. unfold is_word in Hx.
    apply orb_true_iff in Hx. destruct Hx as [Hx | Hx]; [exact Hx|].
    apply N.eqb_eq in Hx. subst x. exfalso. apply H3. reflexivity.
Qed.

Lemma property_name_ok s : property_re s = true <-> lax (identifier letter) s.
Proof.
  apply lax_iff. intros t. apply ident_identifier; [apply alpha_letter|].
  intros c H. unfold is_alnum. rewrite H. reflexivity.
Qed.
Lemma class_name_ok s : class_name_re s = true <-> lax (identifier capital) s.
Proof.
  apply lax_iff. intros t. apply ident_identifier; [apply upper_capital|].
  intros c H. unfold is_alnum, is_alpha. rewrite H. now rewrite orb_true_r.
Qed.
Lemma starts_ok (f : chr -> bool) (F : chr -> Prop) s : (forall c, f c = true <-> F c) ->
  (match s with c :: _ => f c | [] => false end) = true <-> starts F s.
Proof.
  intros HF. unfold starts. destruct s as [|c r].
  - split; [discriminate|]. intros (c & r & E & _). discriminate.
  - rewrite HF. split; [eauto|]. intros (c' & r' & E & H). injection E as <- <-. exact H.
Qed.
Lemma initial_ok s : initial_upper s = true <-> starts capital s.
Proof. apply starts_ok. apply upper_capital. Qed.

Lemma no_newline s : negb (existsb (N.eqb 10) s) = true <-> ~ In 10%N s.
Proof.
  rewrite negb_true_iff, <- not_true_iff_false, existsb_exists. apply not_iff_compat. split.
  - intros (x & Hx & E). apply N.eqb_eq in E. now subst.
  - intros H. exists 10%N. split; auto.
Qed.

Lemma description_ok s : description_re s = true <-> lax description_shape s.
Proof.
  apply lax_iff. intros t. rewrite !andb_true_iff, (starts_ok _ small t lower_small), no_newline.
  unfold description_shape. split.
  - intros [[H1 H2] H3]. destruct t as [|c r] eqn:Et; [discriminate|]. rewrite <- Et in *. clear Et c r.
    destruct (exists_last (l := t)) as (m & x & E).
    { intros ->. destruct H1 as (c & r & E & _). discriminate. }
    rewrite E in H3. rewrite last_snoc in H3. apply N.eqb_eq in H3. subst x. exists m. rewrite <- E.
    repeat split; auto. intros H. apply H2. rewrite E. apply in_app_iff; auto.
  - intros (m & H1 & -> & H3). rewrite last_snoc. repeat split; auto.
    rewrite in_app_iff. cbn. intros [H | [H | []]]; [auto | discriminate].
Qed.

Lemma part_ok s : name_part s = true <-> plain_name s.
Proof.
  unfold name_part, plain_name. destruct s as [|c r].
  - split; [discriminate|]. intros (c & r & E & _). discriminate.
  - rewrite andb_true_iff, alpha_letter, words. split; [intros [H1 H2]; eauto 6|].
    intros (c' & r' & E & H1 & H2). injection E as <- <-. auto.
Qed.

Lemma join_cons sep p ps : ps <> [] -> join sep (p :: ps) = p ++ sep ++ join sep ps.
Proof. destruct ps; [congruence|]. reflexivity. Qed.

Lemma plain_no c s : plain_name s -> ~ word c -> ~ In c s.
Proof.
  intros (x & r & -> & H1 & H2) Hc [-> | H]; [|now apply Hc, H2]. apply Hc. left. exact H1.
Qed.

Lemma split_on_app_sep c a b : ~ In c a -> split_on c (a ++ c :: b) = a :: split_on c b.
Proof.
  induction a as [|x a IH]; intros H; cbn [app split_on].
  - rewrite N.eqb_refl. reflexivity.
  - destruct (N.eqb_spec x c) as [-> | Hx]; [exfalso; apply H; now left|].
    rewrite IH; [reflexivity|]. intros Hi. apply H. now right.
Qed.

Lemma module_ok s : module_re s = true <-> lax (qualified ".") s.
Proof.
  apply lax_iff. intros t. unfold qualified. change (s_ ".") with [46%N]. rewrite forallb_forall. split.
  - intros H. exists (split_on 46%N t). repeat split.
    + destruct (split_on_cons 46%N t) as (p & ps & E). rewrite E. discriminate.
    + intros p Hp. apply part_ok, H, Hp.
    + symmetry. apply split_on_join.
  - intros (ps & Hne & Hp & ->) p Hin. apply part_ok, Hp.
    enough (E : split_on 46%N (join [46%N] ps) = ps) by now rewrite E in Hin.
    clear Hin p. assert (Hn : forall p, In p ps -> ~ In 46%N p).
    { intros p Hi. apply plain_no; auto. unfold word, letter, capital, small, digit. intros H. lia. }
    clear Hp. induction ps as [|p ps IH]; [congruence|]. destruct ps as [|q ps].
    + apply split_on_id. apply Hn. now left.
    + rewrite join_cons by discriminate. cbn [app]. rewrite split_on_app_sep by (apply Hn; now left).
      rewrite IH; [reflexivity | discriminate |]. intros r Hr. apply Hn. now right.
Qed.

Lemma colons_join s : forall acc, join [58%N; 58%N] (split_colons acc s) = rev acc ++ s.
Proof.
  assert (Hc : forall acc s, split_colons acc s <> []).
  { intros acc t. revert acc. induction t as [|c|c d t IH1 IH2] using str_ind2; intros acc; cbn; try discriminate.
    destruct (N.eqb c 58 && N.eqb d 58); [discriminate|]. apply (IH2 (c :: acc)). }
  induction s as [|c|c d s IH1 IH2] using str_ind2; intros acc.
  - cbn. now rewrite app_nil_r.
  - cbn. reflexivity.
  - cbn [split_colons]. destruct (N.eqb c 58 && N.eqb d 58) eqn:E.
    + apply andb_true_iff in E. destruct E as [E1 E2]. apply N.eqb_eq in E1, E2. subst.
      rewrite join_cons by apply Hc. rewrite IH1. reflexivity.
    + change (join [58%N; 58%N] (split_colons (c :: acc) (d :: s)) = rev acc ++ c :: d :: s).
      rewrite IH2. cbn. rewrite <- app_assoc. reflexivity.
Qed.
Lemma colons_id p : ~ In 58%N p -> forall acc, split_colons acc p = [rev acc ++ p].
Proof.
  induction p as [|c|c d p IH1 IH2] using str_ind2; intros H acc; cbn [split_colons].
  - now rewrite app_nil_r.
  - reflexivity.
  - assert (Ec : N.eqb c 58 = false) by (apply N.eqb_neq; intros ->; apply H; now left).
    rewrite Ec. cbn [andb]. change (split_colons (c :: acc) (d :: p) = [rev acc ++ c :: d :: p]).
    rewrite IH2; [cbn; now rewrite <- app_assoc|]. intros Hi. apply H. now right.
Qed.
Lemma colons_app p t : ~ In 58%N p -> forall acc,
  split_colons acc (p ++ 58%N :: 58%N :: t) = (rev acc ++ p) :: split_colons [] t.
Proof.
  induction p as [|c p IH]; intros H acc.
  - cbn. now rewrite app_nil_r.
  - assert (Ec : N.eqb c 58 = false) by (apply N.eqb_neq; intros ->; apply H; now left).
    cbn [app]. cbn [split_colons]. rewrite Ec. cbn [andb].
    destruct (p ++ 58%N :: 58%N :: t) as [|d u] eqn:Eu; [destruct p; discriminate|].
    rewrite IH by (intros Hi; apply H; now right). cbn. now rewrite <- app_assoc.
Qed.
Lemma namespace_ok s : namespace_re s = true <-> lax (qualified "::") s.
Proof.
  apply lax_iff. intros t. unfold qualified. change (s_ "::") with [58%N; 58%N]. rewrite forallb_forall. split.
  - intros H. exists (split_colons [] t). repeat split.
    + intros E. assert (E' := colons_join t []). rewrite E in E'. cbn in E'. subst t. discriminate.
    + intros p Hp. apply part_ok, H, Hp.
    + symmetry. apply colons_join.
  - intros (ps & Hne & Hp & ->) p Hin. apply part_ok, Hp.
    enough (E : split_colons [] (join [58%N; 58%N] ps) = ps) by now rewrite E in Hin.
    clear Hin p. assert (Hn : forall p, In p ps -> ~ In 58%N p).
    { intros p Hi. apply plain_no; auto. unfold word, letter, capital, small, digit. intros H. lia. }
    clear Hp. induction ps as [|p ps IH]; [congruence|]. destruct ps as [|q ps].
    + apply colons_id. apply Hn. now left.
    + rewrite join_cons by discriminate. cbn [app]. rewrite colons_app by (apply Hn; now left).
      rewrite IH; [reflexivity | discriminate |]. intros r Hr. apply Hn. now right.
Qed.
Lemma indention_ok s : indention_re s = true <-> lax blank s.
Proof.
  apply lax_iff. intros t. rewrite forallb_forall. unfold blank. split; intros H c Hc; specialize (H c Hc).
  - apply orb_true_iff in H. rewrite !N.eqb_eq in H. exact H.
  - apply orb_true_iff. rewrite !N.eqb_eq. exact H.
Qed.
Lemma type_re_ok s : type_re s = true <-> exists c, In c s /\ letter c.
Proof.
  unfold type_re. rewrite existsb_exists. split; intros (c & H1 & H2); exists c; split; auto; now apply alpha_letter.
Qed.

(** * Objects *)

Lemma mem_keys {A} k (l : list (str * A)) : mem k (keys l) = true <-> In k (keys l).
Proof. apply mem_In. Qed.

Lemma lookup_iff {A} k (l : list (str * A)) v : NoDup (keys l) -> lookup k l = Some v <-> In (k, v) l.
Proof. intros H. split; [apply lookup_In | now apply In_lookup]. Qed.

Definition valid_member (l : list (str * jval)) (ks : str * jschema) : Prop :=
  forall v, In (fst ks, v) l -> jvalid (snd ks) v = true.

Lemma jvalid_object ps req add l : NoDup (keys l) ->
  jvalid (SObject ps req add) (JObj l) = true <->
  Forall (valid_member l) ps /\ Forall (fun k => In k (keys l)) req /\
  forall k v, In (k, v) l -> In k (keys ps) \/ exists a, add = Some a /\ jvalid a v = true.
Proof.
  intros Hn. cbn [jvalid]. rewrite !andb_true_iff.
  match goal with |- (?f ps = true /\ _) /\ _ <-> _ => set (props := f) end.
  assert (H1 : props ps = true <-> Forall (valid_member l) ps).
  { induction ps as [|(k, s) r IH]; [split; auto|]. cbn [props]. unfold props. fold props.
    rewrite andb_true_iff, IH, Forall_cons_iff. apply and_iff_compat_r. unfold valid_member. cbn [fst snd].
    destruct (lookup k l) as [x|] eqn:E.
    - split.
      + intros H v Hv. apply (In_lookup _ _ _ Hn) in Hv. congruence.
      + intros H. apply H. now apply lookup_In.
    - split; [|reflexivity]. intros _ v Hv. apply (In_lookup _ _ _ Hn) in Hv. congruence. }
  rewrite H1, !forallb_forall, (Forall_forall (fun k => In k (keys l))). clear H1 props. rewrite and_assoc. apply and_iff_compat_l.
  assert (H2 : (forall k, In k req -> mem k (keys l) = true) <-> (forall k, In k req -> In k (keys l))).
  { split; intros H k Hk; apply mem_In; auto. }
  rewrite H2. apply and_iff_compat_l. split.
  - intros H k v Hv. specialize (H _ Hv). apply orb_true_iff in H. cbn [fst snd] in H.
    destruct H as [H | H]; [left; now apply mem_In|]. right. destruct add; [eauto|discriminate].
  - intros H (k, v) Hv. cbn [fst snd]. apply orb_true_iff. destruct (H _ _ Hv) as [H' | (a & -> & H')]; auto.
    left. now apply mem_In.
Qed.

(** * Numbers *)

Lemma power2_Qpower e : (power2 e == 2 ^ e)%Q.
Proof.
  unfold power2. destruct (Z.leb_spec 0 e) as [H | H].
  - destruct e as [|p|p]; [reflexivity | | lia]. rewrite Zpower_Qpower by lia. reflexivity.
  - destruct e as [|p|p]; [lia | lia|]. cbn [Z.opp]. rewrite Zpower_Qpower by lia. reflexivity.
Qed.
Lemma power2_pos e : (0 < power2 e)%Q.
Proof. rewrite power2_Qpower. apply Qpower_0_lt. reflexivity. Qed.

Lemma scaled n e g : (g <= e)%Z -> (inject_Z n * power2 e == inject_Z (n * 2 ^ (e - g)) * power2 g)%Q.
Proof.
  intros H. rewrite inject_Z_mult, !power2_Qpower. rewrite Zpower_Qpower by lia.
  rewrite <- Qmult_assoc. apply Qmult_comp; [reflexivity|].
  change (inject_Z 2) with 2%Q. rewrite <- Qpower_plus by discriminate. replace (e - g + g)%Z with e by lia. reflexivity.
Qed.

Definition q_of (ne : Z * Z) : Q := inject_Z (fst ne) * power2 (snd ne).
Lemma finite_value v ne : finite_num v = Some ne -> exists q, value v = Fin q /\ (q == q_of ne)%Q.
Proof.
  unfold finite_num, value. destruct v as [| |z|f| | |]; try discriminate.
  - intros [= <-]. eexists. split; [reflexivity|]. unfold q_of. cbn [fst snd]. unfold power2. cbn. now rewrite Qmult_1_r.
  - destruct f as [s|s| |s m e]; try discriminate; intros [= <-]; eexists; (split; [reflexivity|]); reflexivity.
Qed.
Lemma cmp_q n e m f :
  let g := Z.min e f in
  match Z.compare (n * 2 ^ (e - g)) (m * 2 ^ (f - g)) with
  | Eq => (q_of (n, e) == q_of (m, f))%Q
  | Lt => (q_of (n, e) < q_of (m, f))%Q
  | Gt => (q_of (m, f) < q_of (n, e))%Q
  end.
Proof.
  intros g. unfold q_of. cbn [fst snd].
  assert (E1 := scaled n e g ltac:(lia)). assert (E2 := scaled m f g ltac:(lia)).
  assert (Hp := power2_pos g).
  destruct (Z.compare_spec (n * 2 ^ (e - g)) (m * 2 ^ (f - g))) as [H | H | H].
  - rewrite E1, E2, H. reflexivity.
  - rewrite E1, E2. apply Qmult_lt_compat_r; auto. now rewrite <- Zlt_Qlt.
  - rewrite E1, E2. apply Qmult_lt_compat_r; auto. now rewrite <- Zlt_Qlt.
Qed.

Lemma num_cmp_spec a b :
  match num_cmp a b with
  | Some Eq => same (value a) (value b)
  | Some Lt => below (value a) (value b)
  | Some Gt => below (value b) (value a)
  | None => ~ below (value a) (value b) /\ ~ below (value b) (value a) /\ ~ same (value a) (value b)
  end.
Proof.
  assert (Hfin : forall na nb, finite_num a = Some na -> finite_num b = Some nb ->
    num_cmp a b = match finite_num a, finite_num b with
      | Some (n, e), Some (m, f) =>
          let g := Z.min e f in Some (Z.compare (n * 2 ^ (e - g)) (m * 2 ^ (f - g)))
      | _, _ => None
      end).
  { intros na nb Ea Eb. destruct a as [| |?|[]| | |]; try discriminate; destruct b as [| |?|[]| | |]; try discriminate; reflexivity. }
  destruct (finite_num a) as [(n, e)|] eqn:Ea; [destruct (finite_num b) as [(m, f)|] eqn:Eb|].
  - rewrite (Hfin _ _ eq_refl eq_refl). cbn zeta.
    destruct (finite_value _ _ Ea) as (p & Ep & Hp). destruct (finite_value _ _ Eb) as (q & Eq & Hq).
    rewrite Ep, Eq. unfold same, below. assert (H := cmp_q n e m f). cbn zeta in H.
    destruct (Z.compare _ _); rewrite Hp, Hq; exact H.
  - clear Hfin. destruct a as [| |?|[]| | |]; try discriminate; destruct b as [| |?|[]| | |]; try discriminate; cbn in *;
      try (destruct s0; cbn); try (destruct s; cbn); tauto.
  - clear Hfin. destruct a as [| |?|[]| | |]; try discriminate; destruct b as [| |?|[]| | |]; try discriminate; cbn in *;
      try (destruct s0; cbn); try (destruct s; cbn); tauto.
Qed.
Lemma below_irrefl_same a b : same a b -> ~ below a b.
Proof. destruct a, b; cbn; auto. intros H1 H2. rewrite H1 in H2. now apply Qlt_irrefl in H2. Qed.
Lemma same_sym a b : same a b -> same b a.
Proof. destruct a, b; cbn; auto. intros H. now symmetry. Qed.
Lemma below_asym a b : below a b -> ~ below b a.
Proof. destruct a, b; cbn; auto. intros H1 H2. apply (Qlt_irrefl q). eapply Qlt_trans; eauto. Qed.

Lemma num_gt_spec a b : num_gt a b = true <-> below (value b) (value a).
Proof.
  unfold num_gt. assert (H := num_cmp_spec a b). destruct (num_cmp a b) as [[]|]; split; intros E;
    try discriminate; try assumption; try reflexivity; exfalso.
  - now apply same_sym, below_irrefl_same in H.
  - now apply below_asym in H.
  - tauto.
Qed.
Lemma num_eq_spec a b : num_eq a b = true <-> same (value a) (value b).
Proof.
  unfold num_eq. assert (H := num_cmp_spec a b). destruct (num_cmp a b) as [[]|]; split; intros E;
    try discriminate; try assumption; try reflexivity; exfalso.
  - now apply below_irrefl_same in E.
  - now apply same_sym, below_irrefl_same in E.
  - tauto.
Qed.
