From Verif Require Import Base M_Naming.
From Coq Require Import String Ascii List NArith ZArith Bool Lia.
Import ListNotations.

(** ** Empty parts of a split *)

Lemma split_head_nil c s qs : split_on c s = [] :: qs -> s = [] \/ exists r, s = c :: r.
Proof.
  destruct s as [|x s]; simpl; [auto|].
  destruct (N.eqb x c) eqn:E.
  - apply N.eqb_eq in E. subst. eauto.
  - destruct (split_on_cons c s) as [p [ps ->]]. discriminate.
Qed.

Lemma split_tail_nil c s : forall p ps,
  split_on c s = p :: ps -> In [] ps ->
  (exists a b, s = a ++ [c; c] ++ b) \/ (exists a, s = a ++ [c]).
Proof.
  induction s as [|x s IH]; simpl; intros p ps E HI.
  - injection E as <- <-. destruct HI.
  - destruct (N.eqb x c) eqn:Ex.
    + apply N.eqb_eq in Ex. subst x. injection E as <- <-.
      destruct (split_on_cons c s) as [q [qs Eq]]. rewrite Eq in *.
      destruct HI as [->|HI].
      * apply split_head_nil in Eq as [->|[r ->]].
        -- right. exists []. reflexivity.
        -- left. exists [], r. reflexivity.
      * destruct (IH _ _ eq_refl HI) as [[a [b ->]]|[a ->]].
        -- left. exists (c :: a), b. reflexivity.
        -- right. exists (c :: a). reflexivity.
    + destruct (split_on_cons c s) as [q [qs Eq]]. rewrite Eq in *. injection E as <- <-.
      destruct (IH _ _ eq_refl HI) as [[a [b ->]]|[a ->]].
      * left. exists (x :: a), b. reflexivity.
      * right. exists (x :: a). reflexivity.
Qed.

Lemma split_double c a b : In [] (tl (split_on c (a ++ [c; c] ++ b))).
Proof.
  induction a as [|x a IH].
  - simpl. rewrite N.eqb_refl. simpl. left. reflexivity.
  - change ((x :: a) ++ [c; c] ++ b) with (x :: (a ++ [c; c] ++ b)).
    set (w := a ++ [c; c] ++ b) in *. cbn [split_on].
    destruct (split_on_cons c w) as [q [qs Eq]]. rewrite Eq in *.
    destruct (N.eqb x c) eqn:Ex; simpl in *; [right|]; exact IH.
Qed.

Lemma ident_shape_inv first s : ident_shape first s = true ->
  exists c r, s = c :: r /\ first c = true /\ (forall x, In x r -> is_word x = true) /\
              is_alnum (last s 95%N) = true.
Proof.
  destruct s as [|c r]; cbn [ident_shape]; [discriminate|].
  rewrite !andb_true_iff, forallb_forall. intros [[H1 H2] H3]. eauto 7.
Qed.

Definition first_ok (first : chr -> bool) := forall c, first c = true -> is_alpha c = true.

Lemma alpha_first : first_ok is_alpha.
Proof. intros c H. exact H. Qed.
Lemma upper_first : first_ok is_upper.
Proof. intros c H. unfold is_alpha. rewrite H. apply orb_true_r. Qed.

Lemma alpha_not_underscore c : is_alpha c = true -> c <> 95%N.
Proof. intros H ->. discriminate. Qed.

Lemma last_snoc {A} (a : list A) x d : last (a ++ [x]) d = x.
Proof.
  induction a as [|y a IH]; [reflexivity|].
  simpl. destruct (a ++ [x]) eqn:E; [destruct a; discriminate|]. exact IH.
Qed.

Lemma ident_shape_parts first s : first_ok first -> ident_shape first s = true ->
  (In [] (split_on 95%N s) <-> exists a b, s = a ++ [95; 95]%N ++ b).
Proof.
  intros Hf H. apply ident_shape_inv in H as (c & r & -> & Hc & Hr & Hl).
  split.
  - destruct (split_on_cons 95%N (c :: r)) as [p [ps E]]. rewrite E.
    intros [->|HI].
    + apply split_head_nil in E as [E|[r' E]]; [discriminate|].
      injection E as E _. apply Hf, alpha_not_underscore in Hc. congruence.
    + destruct (split_tail_nil _ _ _ _ E HI) as [Hd|[a Ha]]; [exact Hd|].
      rewrite Ha in Hl. rewrite last_snoc in Hl. discriminate.
  - intros [a [b ->]]. pose proof (split_double 95%N a b) as HI.
    revert HI. destruct (split_on 95%N (a ++ [95%N; 95%N] ++ b)); simpl; intros HI;
      [destruct HI|right; exact HI].
Qed.

(** ** Capitalizing parts *)

Lemma capitalize_parts_ok ps :
  ~ In [] ps -> capitalize_parts ps = Ok (map (fun p => match p with [] => [] | c :: r => upper_c c :: r end) ps).
Proof.
  induction ps as [|p ps IH]; simpl; [reflexivity|].
  intros H. destruct p as [|c r]; [tauto|]. simpl. rewrite IH by tauto. reflexivity.
Qed.

Lemma capitalize_parts_err ps : In [] ps -> capitalize_parts ps = Raise IndexError.
Proof.
  induction ps as [|p ps IH]; simpl; [tauto|].
  intros H. destruct p as [|c r]; [reflexivity|]. simpl.
  destruct H as [H|H]; [discriminate|]. rewrite IH by exact H. reflexivity.
Qed.

Lemma upper_c_alnum c : is_alnum c = true -> is_alnum (upper_c c) = true.
Proof.
  unfold upper_c, is_alnum, is_alpha, is_lower, is_upper, is_digit. intros H.
  destruct ((97 <=? c) && (c <=? 122))%N eqn:E; [|rewrite E; exact H].
  apply andb_true_iff in E as [E1 E2]. apply N.leb_le in E1, E2.
  apply orb_true_iff. left. apply orb_true_iff. right.
  apply andb_true_iff. split; apply N.leb_le; lia.
Qed.

Lemma lower_c_alnum c : is_alnum c = true -> is_alnum (lower_c c) = true.
Proof.
  unfold lower_c, is_alnum, is_alpha, is_lower, is_upper, is_digit. intros H.
  destruct ((65 <=? c) && (c <=? 90))%N eqn:E; [|rewrite E; exact H].
  apply andb_true_iff in E as [E1 E2]. apply N.leb_le in E1, E2.
  apply orb_true_iff. left. apply orb_true_iff. left.
  apply andb_true_iff. split; apply N.leb_le; lia.
Qed.

Lemma lower_c_word c : is_word c = true -> is_word (lower_c c) = true.
Proof.
  unfold is_word. rewrite !orb_true_iff. intros [H|H]; [left; apply lower_c_alnum, H|].
  right. apply N.eqb_eq in H. subst. reflexivity.
Qed.

Lemma lower_c_idem c : lower_c (lower_c c) = lower_c c.
Proof.
  unfold lower_c at 2 3. destruct (is_upper c) eqn:E.
  - unfold lower_c. unfold is_upper in *.
    apply andb_true_iff in E as [E1 E2]. apply N.leb_le in E1, E2.
    replace ((65 <=? c + 32) && (c + 32 <=? 90))%N with false; [reflexivity|].
    symmetry. apply andb_false_iff. right. apply N.leb_gt. lia.
  - unfold lower_c. rewrite E. reflexivity.
Qed.

Lemma upper_c_idem c : upper_c (upper_c c) = upper_c c.
Proof.
  unfold upper_c at 2 3. destruct (is_lower c) eqn:E.
  - unfold upper_c. unfold is_lower in *.
    apply andb_true_iff in E as [E1 E2]. apply N.leb_le in E1, E2.
    replace ((97 <=? c - 32) && (c - 32 <=? 122))%N with false; [reflexivity|].
    symmetry. apply andb_false_iff. left. apply N.leb_gt. lia.
  - unfold upper_c. rewrite E. reflexivity.
Qed.

Lemma alpha_lower_c c : is_alpha c = true -> is_lower (lower_c c) = true.
Proof.
  unfold is_alpha, lower_c. destruct (is_upper c) eqn:E.
  - intros _. unfold is_upper, is_lower in *. apply andb_true_iff in E as [E1 E2].
    apply N.leb_le in E1, E2. apply andb_true_iff. split; apply N.leb_le; lia.
  - rewrite orb_false_r. auto.
Qed.

Lemma alpha_upper_c c : is_alpha c = true -> is_upper (upper_c c) = true.
Proof.
  unfold is_alpha, upper_c. destruct (is_lower c) eqn:E.
  - intros _. unfold is_upper, is_lower in *. apply andb_true_iff in E as [E1 E2].
    apply N.leb_le in E1, E2. apply andb_true_iff. split; apply N.leb_le; lia.
  - simpl. auto.
Qed.

Lemma In_split_part c s p x : In p (split_on c s) -> In x p -> In x s /\ x <> c.
Proof.
  revert p; induction s as [|y s IH]; simpl; intros p.
  - intros [<-|[]] [].
  - destruct (N.eqb y c) eqn:E.
    + intros [<-|H]; [intros []|]. intros Hx. destruct (IH _ H Hx). auto.
    + destruct (split_on_cons c s) as [q [qs Eq]]. rewrite Eq in *.
      apply N.eqb_neq in E.
      intros [<-|H].
      * intros [<-|Hx]; [auto|]. destruct (IH q (or_introl eq_refl) Hx). auto.
      * intros Hx. destruct (IH p (or_intror H) Hx). auto.
Qed.

(** An identifier of the C family: starts with [first], the rest alphanumeric. *)
Definition starts (p : chr -> bool) (s : str) : Prop := exists c r, s = c :: r /\ p c = true.

Lemma parts_alnum first s p x : first_ok first -> ident_shape first s = true ->
  In p (split_on 95%N s) -> In x p -> is_alnum x = true.
Proof.
  intros Hf H HI Hx. apply ident_shape_inv in H as (c & r & -> & Hc & Hr & Hl).
  destruct (In_split_part _ _ _ _ HI Hx) as [H1 H2].
  destruct H1 as [<-|H1].
  - apply Hf in Hc. unfold is_alnum. rewrite Hc. reflexivity.
  - apply Hr in H1. unfold is_word in H1. apply orb_true_iff in H1 as [H1|H1]; [exact H1|].
    apply N.eqb_eq in H1. contradiction.
Qed.

Lemma split_first first c r : first_ok first -> first c = true ->
  exists p ps, split_on 95%N (c :: r) = (c :: p) :: ps.
Proof.
  intros Hf Hc. simpl. apply Hf, alpha_not_underscore, N.eqb_neq in Hc. rewrite Hc.
  destruct (split_on_cons 95%N r) as [q [qs ->]]. eauto.
Qed.

Lemma ucamel_ok first s : first_ok first -> ident_shape first s = true ->
  ~ (exists a b, s = a ++ [95; 95]%N ++ b) ->
  exists r, ucamel_case s = Ok r /\ starts is_upper r /\ (forall x, In x r -> is_alnum x = true).
Proof.
  intros Hf H Hd.
  assert (Hn : ~ In [] (split_on 95%N s)).
  { intros HI. apply Hd. eapply ident_shape_parts; eauto. }
  pose proof (parts_alnum first s) as HP.
  destruct (ident_shape_inv _ _ H) as (c & r & -> & Hc & _ & _).
  destruct (split_first _ c r Hf Hc) as [p [ps E]].
  unfold ucamel_case, split_identifier, underscore.
  rewrite capitalize_parts_ok by exact Hn. rewrite E. simpl.
  replace (upper_c c =? upper_c (upper_c c))%N with true
    by (rewrite upper_c_idem; symmetry; apply N.eqb_refl).
  eexists. split; [reflexivity|]. split.
  - eexists _, _. split; [reflexivity|]. apply alpha_upper_c, Hf, Hc.
  - intros x [<-|Hx].
    + apply upper_c_alnum. unfold is_alnum. apply Hf in Hc. rewrite Hc. reflexivity.
    + apply in_app_iff in Hx as [Hx|Hx].
      * apply (HP (c :: p)); auto; [rewrite E; left; reflexivity|right; exact Hx].
      * apply in_concat in Hx as [l [Hl Hx]]. apply in_map_iff in Hl as [q [<- Hq]].
        assert (Hq' : In q (split_on 95%N (c :: r))) by (rewrite E; right; exact Hq).
        destruct q as [|y q]; [destruct Hx|].
        destruct Hx as [<-|Hx]; [apply upper_c_alnum|]; apply (HP (y :: q)); auto;
          [left; reflexivity|right; exact Hx].
Qed.

Lemma camel_ok first s : first_ok first -> ident_shape first s = true ->
  ~ (exists a b, s = a ++ [95; 95]%N ++ b) ->
  exists r, camel_case s = Ok r /\ starts is_lower r /\ (forall x, In x r -> is_alnum x = true).
Proof.
  intros Hf H Hd.
  assert (Hn : ~ In [] (split_on 95%N s)).
  { intros HI. apply Hd. eapply ident_shape_parts; eauto. }
  pose proof (parts_alnum first s) as HP.
  destruct (ident_shape_inv _ _ H) as (c & r & -> & Hc & _ & _).
  destruct (split_first _ c r Hf Hc) as [p [ps E]].
  unfold camel_case, split_identifier, underscore.
  rewrite E in *.
  rewrite capitalize_parts_ok by (intros HI; apply Hn; right; exact HI). simpl.
  replace (lower_c c =? lower_c (lower_c c))%N with true
    by (rewrite lower_c_idem; symmetry; apply N.eqb_refl).
  eexists. split; [reflexivity|]. split.
  - eexists _, _. split; [reflexivity|]. apply alpha_lower_c, Hf, Hc.
  - intros x [<-|Hx].
    + apply lower_c_alnum. unfold is_alnum. apply Hf in Hc. rewrite Hc. reflexivity.
    + apply in_app_iff in Hx as [Hx|Hx].
      * apply in_map_iff in Hx as [y [<- Hy]]. apply lower_c_alnum.
        apply (HP (c :: p)); auto; [left; reflexivity|right; exact Hy].
      * apply in_concat in Hx as [l [Hl Hx]]. apply in_map_iff in Hl as [q [<- Hq]].
        assert (Hq' : In q ((c :: p) :: ps)) by (right; exact Hq).
        destruct q as [|y q]; [destruct Hx|].
        destruct Hx as [<-|Hx]; [apply upper_c_alnum|]; apply (HP (y :: q)); auto;
          [left; reflexivity|right; exact Hx].
Qed.

Lemma camel_err first s : first_ok first -> ident_shape first s = true ->
  (exists a b, s = a ++ [95; 95]%N ++ b) ->
  camel_case s = Raise IndexError /\ ucamel_case s = Raise IndexError.
Proof.
  intros Hf H Hd.
  assert (Hn : In [] (split_on 95%N s)) by (eapply ident_shape_parts; eauto).
  destruct (ident_shape_inv _ _ H) as (c & r & -> & Hc & _ & _).
  destruct (split_first _ c r Hf Hc) as [p [ps E]].
  unfold camel_case, ucamel_case, split_identifier, underscore. split.
  - rewrite E in *. destruct Hn as [Hn|Hn]; [discriminate|].
    rewrite capitalize_parts_err by exact Hn. reflexivity.
  - rewrite capitalize_parts_err by exact Hn. reflexivity.
Qed.

Lemma attribute_ok first s : first_ok first -> ident_shape first s = true ->
  exists r, as_attribute s = Ok r /\ starts is_lower r /\ (forall x, In x r -> is_word x = true).
Proof.
  intros Hf H. destruct (ident_shape_inv _ _ H) as (c & r & -> & Hc & Hr & _).
  exists (lower (c :: r)). split; [reflexivity|]. split.
  - eexists _, _. split; [reflexivity|]. apply alpha_lower_c, Hf, Hc.
  - intros x Hx. apply in_map_iff in Hx as [y [<- Hy]]. apply lower_c_word.
    destruct Hy as [<-|Hy]; [|apply Hr, Hy]. unfold is_word, is_alnum.
    apply Hf in Hc. rewrite Hc. reflexivity.
Qed.

(** ** Plurals *)

Lemma last_split_suffix c s : exists a, s = a ++ last (split_on c s) [].
Proof.
  induction s as [|x s [a IH]].
  - exists []. reflexivity.
  - simpl. destruct (split_on_cons c s) as [p [ps E]]. rewrite E in *.
    destruct (N.eqb x c).
    + exists (x :: a). cbn [app]. f_equal. exact IH.
    + destruct ps as [|q qs].
      * simpl in *. exists []. destruct a as [|y a].
        -- simpl in *. congruence.
        -- exfalso. pose proof (split_on_join c s) as J. rewrite E in J. simpl in J. subst p.
           assert (L : length s = length ((y :: a) ++ s)) by congruence.
           rewrite app_length in L. simpl in L. lia.
      * exists (x :: a). cbn [app]. f_equal. exact IH.
Qed.

Lemma plural_regular s :
  lookup (last (split_on 95%N s) []) PLURAL_TABLE = None ->
  exists suffix, In suffix [s_ "s"; s_ "es"; s_ "ies"] /\
    (plural s = s ++ suffix \/ exists t, s = t ++ s_ "y" /\ plural s = t ++ suffix).
Proof.
  intros H. unfold plural, split_identifier, underscore. rewrite H.
  set (l := last (split_on 95%N s) []).
  destruct (_ || _ || _ || _ || _); [exists (s_ "s"); simpl; auto|].
  destruct (ends_with (s_ "y") l) eqn:Ey.
  - exists (s_ "ies"). split; [simpl; auto|]. right.
    apply ends_with_app in Ey as [r Er].
    destruct (last_split_suffix 95%N s) as [a Ha]. fold l in Ha.
    assert (Hs : s = (a ++ r) ++ s_ "y") by (rewrite <- app_assoc, <- Er; exact Ha).
    exists (a ++ r). split; [exact Hs|].
    f_equal. rewrite Hs. change (s_ "y") with [121%N].
    rewrite removelast_app by discriminate. simpl. apply app_nil_r.
  - destruct (_ || _); [exists (s_ "es")|exists (s_ "s")]; simpl; auto.
Qed.

Lemma last_split_app c s t : ~ In c t -> last (split_on c (s ++ t)) [] = last (split_on c s) [] ++ t.
Proof.
  intros Ht. induction s as [|x s IH].
  - simpl. rewrite split_on_id by exact Ht. reflexivity.
  - cbn [app split_on]. destruct (N.eqb x c).
    + destruct (split_on_cons c (s ++ t)) as (p & ps & E). destruct (split_on_cons c s) as (q & qs & E').
      rewrite E, E' in *. exact IH.
    + destruct (split_on_cons c (s ++ t)) as (p & ps & E). destruct (split_on_cons c s) as (q & qs & E').
      pose proof (split_on_join c (s ++ t)) as J. pose proof (split_on_join c s) as J'.
      rewrite E, E' in *. destruct ps as [|p' ps]; destruct qs as [|q' qs].
      * simpl in *. congruence.
      * exfalso. simpl join in J at 1. subst p.
        pose proof (split_on_no_sep c (s ++ t) (s ++ t)) as N. rewrite E in N. apply N; [left; reflexivity|].
        apply in_or_app. left. rewrite <- J'. simpl. apply in_or_app. right. left. reflexivity.
      * exfalso. simpl in J'. subst q. assert (Hs : ~ In c s) by (apply (split_on_no_sep c s s); rewrite E'; left; reflexivity).
        rewrite split_on_id in E; [discriminate|]. rewrite in_app_iff. tauto.
      * exact IH.
Qed.

Lemma ends_with_last s suf : ~ In 95%N suf ->
  (ends_with suf (last (split_on 95%N s) []) = true <-> exists t, s = t ++ suf).
Proof.
  intros Hn. rewrite ends_with_app. split; intros [r E].
  - destruct (last_split_suffix 95%N s) as [a Ha]. exists (a ++ r). rewrite <- app_assoc, <- E. exact Ha.
  - exists (last (split_on 95%N r) []). rewrite E. apply last_split_app. exact Hn.
Qed.

Lemma ends_with_last_false s suf : ~ In 95%N suf -> (forall t, s <> t ++ suf) ->
  ends_with suf (last (split_on 95%N s) []) = false.
Proof.
  intros Hn H. destruct (ends_with _ _) eqn:E; [|reflexivity]. apply ends_with_last in E; [|exact Hn].
  destruct E as [t E]. exfalso. exact (H t E).
Qed.

Lemma not_suffix2 (t : str) a b c : (forall u, t <> u ++ [a]) -> forall u, t ++ [c] <> u ++ [a; b].
Proof.
  intros H u E. change [a; b] with ([a] ++ [b]) in E. rewrite app_assoc in E. apply app_inj_tail in E.
  destruct E as [E _]. exact (H u E).
Qed.
Lemma not_suffix1 (t : str) b c : c <> b -> forall u, t ++ [c] <> u ++ [b].
Proof. intros H u E. apply app_inj_tail in E. destruct E as [_ E]. exact (H E). Qed.

Ltac no_underscore := simpl; intuition discriminate.

Lemma plural_vowel_y s t v :
  lookup (last (split_on 95%N s) []) PLURAL_TABLE = None ->
  s = t ++ [v; 121%N] -> In v (s_ "aeiou") -> plural s = s ++ s_ "s".
Proof.
  intros H E Hv. unfold plural, split_identifier, underscore. rewrite H.
  assert (B : ends_with [v; 121%N] (last (split_on 95%N s) []) = true).
  { apply ends_with_last; [|exists t; exact E]. simpl in Hv.
    intros [Hd|[Hd|[]]]; [subst v; intuition discriminate|discriminate]. }
  simpl in Hv. destruct Hv as [<-|[<-|[<-|[<-|[<-|[]]]]]].
  - change (ends_with (s_ "ay")) with (ends_with [97%N; 121%N]). rewrite B. reflexivity.
  - change (ends_with (s_ "ey")) with (ends_with [101%N; 121%N]). rewrite B, orb_true_r. reflexivity.
  - change (ends_with (s_ "iy")) with (ends_with [105%N; 121%N]). rewrite B, orb_true_r. reflexivity.
  - change (ends_with (s_ "oy")) with (ends_with [111%N; 121%N]). rewrite B, orb_true_r. reflexivity.
  - change (ends_with (s_ "uy")) with (ends_with [117%N; 121%N]). rewrite B, orb_true_r. reflexivity.
Qed.

Lemma plural_other_y s t :
  lookup (last (split_on 95%N s) []) PLURAL_TABLE = None ->
  s = t ++ [121%N] -> (forall u v, In v (s_ "aeiou") -> t <> u ++ [v]) -> plural s = t ++ s_ "ies".
Proof.
  intros H E Hv. unfold plural, split_identifier, underscore. rewrite H.
  assert (N : forall v, In v (s_ "aeiou") -> ends_with [v; 121%N] (last (split_on 95%N s) []) = false).
  { intros v Iv. apply ends_with_last_false.
    - simpl in Iv. intros [Hd|[Hd|[]]]; [subst v; intuition discriminate|discriminate].
    - rewrite E. apply not_suffix2. intros u. apply Hv. exact Iv. }
  change (ends_with (s_ "ay")) with (ends_with [97%N; 121%N]). change (ends_with (s_ "ey")) with (ends_with [101%N; 121%N]).
  change (ends_with (s_ "iy")) with (ends_with [105%N; 121%N]). change (ends_with (s_ "oy")) with (ends_with [111%N; 121%N]).
  change (ends_with (s_ "uy")) with (ends_with [117%N; 121%N]).
  rewrite !N by (simpl; tauto). simpl orb.
  rewrite (proj2 (ends_with_last s (s_ "y") ltac:(no_underscore))) by (exists t; exact E).
  rewrite E, removelast_app by discriminate. simpl. rewrite app_nil_r. reflexivity.
Qed.

Lemma plural_not_y s t c :
  lookup (last (split_on 95%N s) []) PLURAL_TABLE = None ->
  s = t ++ [c] -> c <> 121%N ->
  plural s = s ++ (if N.eqb c 120 || N.eqb c 115 then s_ "es" else s_ "s").
Proof.
  intros H E Hc. unfold plural, split_identifier, underscore. rewrite H.
  assert (N : forall v, In v (s_ "aeiou") -> ends_with [v; 121%N] (last (split_on 95%N s) []) = false).
  { intros v Iv. apply ends_with_last_false.
    - simpl in Iv. intros [Hd|[Hd|[]]]; [subst v; intuition discriminate|discriminate].
    - intros u Eu. rewrite E in Eu. change [v; 121%N] with ([v] ++ [121%N]) in Eu. rewrite app_assoc in Eu.
      exact (not_suffix1 _ _ _ Hc _ Eu). }
  change (ends_with (s_ "ay")) with (ends_with [97%N; 121%N]). change (ends_with (s_ "ey")) with (ends_with [101%N; 121%N]).
  change (ends_with (s_ "iy")) with (ends_with [105%N; 121%N]). change (ends_with (s_ "oy")) with (ends_with [111%N; 121%N]).
  change (ends_with (s_ "uy")) with (ends_with [117%N; 121%N]).
  rewrite !N by (simpl; tauto). simpl orb.
  rewrite (ends_with_last_false s (s_ "y")); [|no_underscore|rewrite E; apply not_suffix1; exact Hc].
  assert (B : forall x, x <> 95%N -> ends_with [x] (last (split_on 95%N s) []) = N.eqb c x).
  { intros x Hx. destruct (N.eqb_spec c x) as [->|Hn].
    - apply ends_with_last; [|exists t; exact E]. intros [H'|[]]. congruence.
    - apply ends_with_last_false; [|rewrite E; apply not_suffix1; exact Hn]. intros [H'|[]]. congruence. }
  change (s_ "x") with [120%N]. change (ends_with (s_ "s")) with (ends_with [115%N]).
  rewrite !B by discriminate. destruct (N.eqb c 120 || N.eqb c 115); reflexivity.
Qed.

Lemma plural_empty_end s : s = [] -> plural s = s_ "s".
Proof. intros ->. reflexivity. Qed.

Lemma initial_upper_app a b : initial_upper a = true -> initial_upper (a ++ b) = true.
Proof. destruct a; simpl; [discriminate|auto]. Qed.

Definition ascii_lowered (c d : chr) : Prop :=
  ((65 <= c <= 90)%N -> d = (c + 32)%N) /\ (~ (65 <= c <= 90)%N -> d = c).

Lemma lower_lowered s : Forall2 ascii_lowered s (lower s).
Proof.
  induction s as [|c s IH]; simpl; constructor; [|exact IH]. unfold ascii_lowered, lower_c, is_upper.
  destruct (N.leb_spec 65 c); destruct (N.leb_spec c 90); simpl; split; lia.
Qed.

Lemma plural_registry_key s :
  class_name_re s = true ->
  lookup (last (split_on 95%N s) []) PLURAL_TABLE = None ->
  exists r, json_plural (plural s) = Ok r /\ Forall2 ascii_lowered (plural s) r.
Proof.
  intros Hre H.
  assert (HU : initial_upper s = true).
  { unfold class_name_re, py_dollar in Hre. apply orb_true_iff in Hre as [Hre|Hre].
    - destruct (ident_shape_inv _ _ Hre) as (c & r & -> & Hc & _). exact Hc.
    - destruct (rev s) as [|x r] eqn:E; [discriminate|].
      assert (Hs : s = rev r ++ [x]) by (rewrite <- (rev_involutive s), E; reflexivity).
      assert (Hr : ident_shape is_upper (rev r) = true).
      { destruct (N.eq_dec x 10) as [->|Hx]; [exact Hre|].
        exfalso. destruct x as [|q]; [discriminate|].
        do 4 (try destruct q as [q|q|]; try discriminate). congruence. }
      destruct (ident_shape_inv _ _ Hr) as (c & q & E2 & Hc & _).
      rewrite Hs, E2. exact Hc. }
  unfold json_plural.
  assert (initial_upper (plural s) = true) as ->; [|eexists; split; [reflexivity|apply lower_lowered]].
  destruct (plural_regular s H) as [suf [Hs [->|[t [-> ->]]]]].
  - apply initial_upper_app, HU.
  - apply initial_upper_app. destruct t as [|c t]; [|exact HU].
    exfalso. simpl in HU. discriminate.
Qed.

Lemma py_dollar_plain p s : py_dollar p s = true -> ~ In 10%N s -> p s = true.
Proof.
  unfold py_dollar. intros H Hn. apply orb_true_iff in H as [H|H]; [exact H|].
  exfalso. apply Hn. apply in_rev. destruct (rev s) as [|x r]; [discriminate|].
  destruct x as [|q]; [discriminate|].
  do 4 (try destruct q as [q|q|]; try discriminate). left. reflexivity.
Qed.

(** Both camel-case conversions, for names accepted by the property pattern. *)
Lemma conversions_property s : property_re s = true -> ~ In 10%N s ->
  (exists r, as_attribute s = Ok r /\ starts is_lower r /\ (forall x, In x r -> is_word x = true)) /\
  ((exists a b, s = a ++ [95; 95]%N ++ b) ->
     camel_case s = Raise IndexError /\ ucamel_case s = Raise IndexError) /\
  (~ (exists a b, s = a ++ [95; 95]%N ++ b) ->
     (exists r, camel_case s = Ok r /\ starts is_lower r /\ (forall x, In x r -> is_alnum x = true)) /\
     (exists r, ucamel_case s = Ok r /\ starts is_upper r /\ (forall x, In x r -> is_alnum x = true))).
Proof.
  intros H Hn. apply (py_dollar_plain _ _ H) in Hn.
  split; [|split].
  - eapply attribute_ok; [apply alpha_first|exact Hn].
  - intros Hd. eapply camel_err; [apply alpha_first|exact Hn|exact Hd].
  - intros Hd. split; [eapply camel_ok|eapply ucamel_ok]; eauto using alpha_first.
Qed.

Lemma conversions_class s : class_name_re s = true -> ~ In 10%N s ->
  (exists r, as_variable s = Ok r /\ starts is_lower r /\ (forall x, In x r -> is_word x = true)) /\
  ((exists a b, s = a ++ [95; 95]%N ++ b) -> as_composite s = Raise IndexError) /\
  (~ (exists a b, s = a ++ [95; 95]%N ++ b) ->
     exists r, as_composite s = Ok r /\ starts is_upper r /\ (forall x, In x r -> is_alnum x = true)).
Proof.
  intros H Hn. apply (py_dollar_plain _ _ H) in Hn.
  destruct (ident_shape_inv _ _ Hn) as (c & q & E & Hc & _).
  assert (HU : initial_upper s = true) by (subst; exact Hc).
  unfold as_variable, as_composite. rewrite HU.
  split; [|split].
  - destruct (attribute_ok _ _ upper_first Hn) as [r [Hr H']].
    subst s. exists r. split; [exact Hr|exact H'].
  - intros Hd. eapply camel_err; [apply upper_first|exact Hn|exact Hd].
  - intros Hd. eapply ucamel_ok; eauto using upper_first.
Qed.
