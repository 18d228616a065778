(** Proofs about literals, comments and docstrings (C39-C42, C52). *)
From Verif Require Import Base M_Text S_Text.
From Coq Require Import String Ascii List Arith NArith ZArith Bool Lia.
Import ListNotations.
Open Scope list_scope.

(** ** Escaping *)

Definition esc_fold (ms : list (chr * str)) (s : str) : str :=
  fold_left (fun r m => replace_char (fst m) (snd m) r) ms s.

Lemma replace_char_app c t a b : replace_char c t (a ++ b) = replace_char c t a ++ replace_char c t b.
Proof. apply flat_map_app. Qed.

Lemma esc_fold_app ms : forall a b, esc_fold ms (a ++ b) = esc_fold ms a ++ esc_fold ms b.
Proof.
  induction ms as [|m ms IH]; intros a b; [reflexivity|]. unfold esc_fold in *. simpl.
  rewrite replace_char_app. apply IH.
Qed.

Lemma esc_fold_nil ms : esc_fold ms [] = [].
Proof. induction ms as [|m ms IH]; [reflexivity|exact IH]. Qed.

Lemma esc_fold_cons ms c s : esc_fold ms (c :: s) = esc_fold ms [c] ++ esc_fold ms s.
Proof. apply (esc_fold_app ms [c] s). Qed.

Lemma esc_fold_other ms c : ~ In c (map fst ms) -> esc_fold ms [c] = [c].
Proof.
  induction ms as [|m ms IH]; intros H; [reflexivity|]. unfold esc_fold in *. simpl in *.
  destruct (N.eqb_spec c (fst m)) as [->|]; [tauto|]. apply IH. tauto.
Qed.

(** How a single character is written. *)
Lemma esc_cases c :
  (exists e, simple_escape e = Some c /\ esc_fold escapes [c] = [92%N; e]) \/
  (c = 27%N /\ esc_fold escapes [c] = [92; 101]%N) \/
  (esc_fold escapes [c] = [c] /\ c <> 34%N /\ c <> 92%N /\ c <> 10%N /\ c <> 27%N).
Proof.
  destruct (in_dec N.eq_dec c (map fst escapes)) as [H|H].
  - simpl in H. destruct H as [<-|[<-|[<-|[<-|[<-|[<-|[<-|[<-|[<-|[<-|[]]]]]]]]]]].
    1-9: left; eexists; split; [|reflexivity]; reflexivity.
    right. left. split; reflexivity.
  - right. right. split; [apply esc_fold_other; exact H|]. simpl in H. repeat split; intros ->; tauto.
Qed.

Lemma simple_escape_not_e : simple_escape 101 = None.
Proof. reflexivity. Qed.
Lemma simple_escape_gnu gnu e c : simple_escape e = Some c ->
  (if gnu && N.eqb e 101 then Some 27%N else simple_escape e) = Some c.
Proof.
  intros H. destruct (N.eqb_spec e 101) as [->|]; [rewrite simple_escape_not_e in H; discriminate|].
  rewrite andb_false_r. exact H.
Qed.

Lemma go_chars_esc s rest : Forall (fun c => go_char c = true /\ c <> 27%N) s ->
  go_chars (esc_fold escapes s ++ 34%N :: rest) = Some (s, rest).
Proof.
  induction 1 as [|c s [Hc H27] _ IH]; [rewrite esc_fold_nil; reflexivity|].
  rewrite esc_fold_cons.
  destruct (esc_cases c) as [(e & He & ->)|[[-> _]|(-> & H1 & H2 & H3 & _)]]; [|congruence|].
  - cbn [app go_chars]. change (92 =? 34)%N with false. change (92 =? 92)%N with true. cbn iota.
    rewrite He, IH. reflexivity.
  - cbn [app go_chars]. apply N.eqb_neq in H1, H2, H3. rewrite H1, H2, H3, Hc, IH. reflexivity.
Qed.

(** Any other character makes the literal ill-formed. *)
Lemma go_chars_bad s rest : Exists (fun c => go_char c = false \/ c = 27%N) s ->
  go_chars (esc_fold escapes s ++ 34%N :: rest) = None.
Proof.
  induction s as [|c s IH]; intros H; [inversion H|]. rewrite esc_fold_cons.
  destruct (esc_cases c) as [(e & He & ->)|[[-> ->]|(-> & H1 & H2 & H3 & H4)]].
  - cbn [app go_chars]. change (92 =? 34)%N with false. change (92 =? 92)%N with true. cbn iota.
    rewrite He. inversion H as [? ? [C|C]|? ? C]; subst.
    + exfalso. revert He C. unfold go_char. rewrite andb_false_iff, !negb_false_iff, !N.eqb_eq.
      intros He [->| ->]; revert He; unfold simple_escape; cbn [lookup];
        repeat (destruct (str_eqb _ _); [discriminate|]); discriminate.
    + revert He. unfold simple_escape; cbn [lookup];
        repeat (destruct (str_eqb _ _); [discriminate|]); discriminate.
    + rewrite IH by assumption. reflexivity.
  - reflexivity.
  - cbn [app go_chars]. apply N.eqb_neq in H1, H2, H3. rewrite H1, H2, H3.
    inversion H as [? ? [C|C]|? ? C]; subst; [rewrite C; reflexivity|congruence|].
    destruct (go_char c); [|reflexivity]. cbn [orb negb]. rewrite IH by assumption. reflexivity.
Qed.

Lemma cpp_chars_esc gnu s rest : Forall (fun c => c <> 0%N /\ (gnu = true \/ c <> 27%N)) s ->
  cpp_chars gnu (esc_fold escapes s ++ 34%N :: rest) = Some (s, rest).
Proof.
  induction 1 as [|c s [Hc H27] _ IH]; [rewrite esc_fold_nil; reflexivity|].
  rewrite esc_fold_cons.
  destruct (esc_cases c) as [(e & He & ->)|[[-> ->]|(-> & H1 & H2 & H3 & _)]].
  - cbn [app cpp_chars]. change (92 =? 34)%N with false. change (92 =? 92)%N with true. cbn iota.
    rewrite (simple_escape_gnu gnu e c He), IH. reflexivity.
  - destruct H27 as [->|]; [|congruence]. cbn [app cpp_chars].
    change (92 =? 34)%N with false. change (92 =? 92)%N with true. cbn [andb N.eqb Pos.eqb]. rewrite IH. reflexivity.
  - cbn [app cpp_chars]. apply N.eqb_neq in H1, H2, H3, Hc. rewrite H1, H2, H3, Hc, IH. reflexivity.
Qed.

Lemma cpp_chars_bad gnu s rest : Exists (fun c => c = 0%N \/ (gnu = false /\ c = 27%N)) s ->
  cpp_chars gnu (esc_fold escapes s ++ 34%N :: rest) = None.
Proof.
  induction s as [|c s IH]; intros H; [inversion H|]. rewrite esc_fold_cons.
  destruct (esc_cases c) as [(e & He & ->)|[[-> ->]|(-> & H1 & H2 & H3 & H4)]].
  - cbn [app cpp_chars]. change (92 =? 34)%N with false. change (92 =? 92)%N with true. cbn iota.
    rewrite (simple_escape_gnu gnu e c He). inversion H as [? ? [C|[_ C]]|? ? C]; subst.
    + exfalso. revert He. unfold simple_escape; cbn [lookup];
        repeat (destruct (str_eqb _ _); [discriminate|]); discriminate.
    + exfalso. revert He. unfold simple_escape; cbn [lookup];
        repeat (destruct (str_eqb _ _); [discriminate|]); discriminate.
    + rewrite IH by assumption. reflexivity.
  - destruct gnu; [|reflexivity]. cbn [app cpp_chars].
    change (92 =? 34)%N with false. change (92 =? 92)%N with true. cbn [andb N.eqb Pos.eqb].
    rewrite IH; [reflexivity|]. inversion H as [? ? [C|[C _]]|]; subst; [discriminate|discriminate|assumption].
  - cbn [app cpp_chars]. apply N.eqb_neq in H1, H2, H3. rewrite H1, H2, H3.
    inversion H as [? ? [C|[_ C]]|? ? C]; subst; [reflexivity|congruence|].
    destruct (N.eqb c 0); [reflexivity|]. cbn [orb negb]. rewrite IH by assumption. reflexivity.
Qed.

(** ** Backticks *)

Lemma go_raw_part s rest : ~ In 96%N s -> Forall (fun c => go_char c = true) s ->
  go_raw (s ++ 96%N :: rest) = Some (filter (fun c => negb (N.eqb c 13)) s, rest).
Proof.
  induction s as [|c s IH]; intros H1 H2; [reflexivity|].
  apply Forall_cons_iff in H2 as [Hc H2]. simpl in H1. cbn [app go_raw filter].
  destruct (N.eqb_spec c 96) as [->|]; [tauto|]. rewrite Hc. cbn [negb].
  rewrite IH by tauto. destruct (N.eqb c 13); reflexivity.
Qed.

Lemma join_cons2 {sep p q : str} {ps} : join sep (p :: q :: ps) = p ++ sep ++ join sep (q :: ps).
Proof. reflexivity. Qed.

Lemma skip_none p s : (forall c, In c s -> p c = false) -> skip p s = s.
Proof. destruct s as [|c s]; [reflexivity|]. intros H. simpl. rewrite (H c) by (left; reflexivity). reflexivity. Qed.

Definition ticked_tail (parts : list str) : str :=
  concat (map (fun p => s_ "+""`""+" ++ [10%N] ++ s_ "    `" ++ p ++ s_ "`") parts).

Lemma go_concat_parts : forall parts part fuel, 2 * length parts < fuel ->
  Forall (fun p => ~ In 96%N p /\ Forall (fun c => go_char c = true) p) (part :: parts) ->
  go_concat fuel (s_ "`" ++ part ++ s_ "`" ++ ticked_tail parts) =
  Some (filter (fun c => negb (N.eqb c 13)) (join [96%N] (part :: parts))).
Proof.
  induction parts as [|q parts IH]; intros part fuel Hf H;
    apply Forall_cons_iff in H as [[Hp Hg] H]; (destruct fuel as [|fuel]; [simpl in Hf; lia|]).
  - cbn [ticked_tail map concat]. rewrite app_nil_r.
    cbn [go_concat]. change (go_lit (s_ "`" ++ part ++ s_ "`")) with (go_raw (part ++ [96%N])).
    rewrite go_raw_part by assumption. reflexivity.
  - cbn [go_concat].
    change (go_lit (s_ "`" ++ part ++ s_ "`" ++ ticked_tail (q :: parts)))
      with (go_raw (part ++ 96%N :: ticked_tail (q :: parts))).
    rewrite go_raw_part by assumption.
    change (ticked_tail (q :: parts)) with
      (43%N :: 34%N :: 96%N :: 34%N :: 43%N :: 10%N :: 32%N :: 32%N :: 32%N :: 32%N ::
       (s_ "`" ++ q ++ s_ "`") ++ ticked_tail parts).
    cbn [skip N.eqb Pos.eqb orb].
    destruct fuel as [|fuel]; [simpl in Hf; lia|].
    cbn [go_concat go_lit go_chars N.eqb Pos.eqb orb negb go_char andb cons_fst skip].
    change (((96 =? 10)%N || negb (go_char 96))) with false. cbn iota. cbn [cons_fst skip N.eqb Pos.eqb orb].
    rewrite <- !app_assoc.
    change (skip (fun c : N => (c =? 32)%N || (c =? 9)%N || (c =? 10)%N) (s_ "`" ++ q ++ s_ "`" ++ ticked_tail parts))
      with (s_ "`" ++ q ++ s_ "`" ++ ticked_tail parts).
    rewrite IH; [|simpl in Hf; lia|exact H].
    rewrite join_cons2, !filter_app. reflexivity.
Qed.

Lemma ticked_length parts part :
  2 * length parts < length (s_ "`" ++ part ++ s_ "`" ++ ticked_tail parts).
Proof.
  rewrite !app_length. assert (2 * length parts <= length (ticked_tail parts)).
  { induction parts as [|q parts IH]; [simpl; lia|]. unfold ticked_tail in *. cbn [map concat].
    rewrite !app_length. cbn [length]. change (length (s_ "+""`""+")) with 5. lia. }
  change (length (s_ "`")) with 1. lia.
Qed.

Lemma split_on_Forall (P : chr -> Prop) c s : Forall P s ->
  Forall (fun p => ~ In c p /\ Forall P p) (split_on c s).
Proof.
  intros H. apply Forall_forall. intros p Hp. split; [eapply split_on_no_sep; exact Hp|].
  revert p Hp. induction H as [|x s Hx _ IH]; simpl; intros p Hp.
  - destruct Hp as [<-|[]]. constructor.
  - destruct (N.eqb x c).
    + destruct Hp as [<-|Hp]; [constructor|auto].
    + destruct (split_on_cons c s) as (q & qs & E). rewrite E in *.
      destruct Hp as [<-|Hp]; [constructor; [exact Hx|apply IH; left; reflexivity]|apply IH; right; exact Hp].
Qed.

Lemma ticked_value text : Forall (fun c => go_char c = true) text ->
  go_string_expr (ticked_str text) = Some (filter (fun c => negb (N.eqb c 13)) text).
Proof.
  intros H. unfold go_string_expr, ticked_str.
  pose proof (split_on_Forall _ 96%N text H) as F. pose proof (split_on_join 96%N text) as J.
  destruct (split_on_cons 96%N text) as (part & parts & E). rewrite E in *.
  fold (ticked_tail parts). rewrite <- !app_assoc.
  rewrite go_concat_parts; [|apply ticked_length|exact F]. rewrite J. reflexivity.
Qed.

(** ** Raw literals of patterns *)

Definition has_sub (p s : str) : Prop := exists a b, s = a ++ p ++ b.

Lemma until_found stop c0 : hd_error stop = Some c0 -> ~ In c0 (tl stop) ->
  forall s, ~ In 0%N s -> ~ has_sub stop s -> until stop (s ++ stop) = Some (s, []).
Proof.
  intros H0 H1. destruct stop as [|c stop]; [discriminate|]. simpl in H0, H1. injection H0 as ->.
  induction s as [|c s IH]; intros Hn Hs.
  - simpl. rewrite N.eqb_refl. assert (starts_with stop stop = true) as ->.
    { apply starts_with_app. exists []. rewrite app_nil_r. reflexivity. }
    simpl. rewrite skipn_all. reflexivity.
  - cbn [app until]. destruct (starts_with (c0 :: stop) (c :: s ++ c0 :: stop)) eqn:E.
    + exfalso. apply starts_with_app in E as [r E]. cbn [app] in E. injection E as -> E.
      (* either [stop] lies in [s] or the first character of the delimiter in its rest *)
      assert (D : length stop <= length s \/ length s < length stop) by lia. destruct D as [D|D].
      * apply Hs. exists [], (skipn (length stop) s). cbn [app]. f_equal.
        rewrite <- (firstn_skipn (length stop) s) at 1. f_equal.
        apply (f_equal (firstn (length stop))) in E.
        rewrite !firstn_app in E. replace (length stop - length s) with 0 in E by lia.
        rewrite Nat.sub_diag, firstn_all in E. cbn [firstn] in E. rewrite !app_nil_r in E. exact E.
      * apply H1. assert (N1 : nth_error (s ++ c0 :: stop) (length s) = Some c0).
        { rewrite nth_error_app2 by lia. rewrite Nat.sub_diag. reflexivity. }
        rewrite E, nth_error_app1 in N1 by lia. eapply nth_error_In. exact N1.
    + simpl in Hn. destruct (N.eqb_spec c 0); [subst; tauto|].
      rewrite IH; [reflexivity|tauto|]. intros (a & b & ->). apply Hs. exists (c :: a), b. reflexivity.
Qed.

Lemma until_here stop s : starts_with stop s = true -> until stop s = Some ([], skipn (length stop) s).
Proof. intros H. destruct s; cbn [until]; rewrite H; reflexivity. Qed.

(** If the delimiter occurs, the literal ends there. *)
Lemma until_early stop s : stop <> [] -> has_sub stop s -> until stop (s ++ stop) <> Some (s, []).
Proof.
  intros H0 (a & b & ->). revert H0.
  assert (K : forall a x v r, until stop (a ++ stop ++ x) = Some (v, r) -> length v <= length a).
  { clear a b. induction a as [|c a IH]; intros x v r H.
    - cbn [app] in H. rewrite until_here in H by (apply starts_with_app; eauto). injection H as <- _. simpl. lia.
    - cbn [app until] in H. destruct (starts_with stop _); [injection H as <- _; simpl; lia|].
      destruct (N.eqb c 0); [discriminate|]. destruct (until stop (a ++ stop ++ x)) as [[v' r']|] eqn:E; [|discriminate].
      cbn [cons_fst] in H. injection H as <- <-. apply IH in E. simpl. lia. }
  intros H0 H. rewrite <- !app_assoc in H. apply K in H. rewrite !app_length in H. destruct stop; [congruence|simpl in H; lia].
Qed.

Lemma cpp_pattern_value p : ~ In 0%N p ->
  (cpp_raw_literal (s_ "v0g0n") (cpp_pattern p) = Some p <-> ~ has_sub (s_ ")v0g0n""") p).
Proof.
  intros Hn. unfold cpp_raw_literal, cpp_pattern.
  change (s_ "R""" ++ s_ "v0g0n" ++ s_ "(") with (s_ "R""v0g0n(").
  assert (starts_with (s_ "R""v0g0n(") (s_ "R""v0g0n(" ++ p ++ s_ ")v0g0n""") = true) as ->
    by (apply starts_with_app; eauto).
  rewrite skipn_app, skipn_all, Nat.sub_diag. cbn [skipn app].
  change (s_ ")" ++ s_ "v0g0n" ++ s_ """") with (s_ ")v0g0n""").
  split.
  - intros H C. apply (until_early (s_ ")v0g0n""") p); [discriminate|exact C|].
    unfold all_read in H. destruct (until _ _) as [[v [|]]|]; congruence.
  - intros H. rewrite (until_found _ 41%N); [reflexivity|reflexivity| |exact Hn|exact H].
    vm_compute. intuition discriminate.
Qed.

Lemma py_newlines_id s : ~ In 13%N s -> py_newlines s = s.
Proof.
  induction s as [|c s IH]; intros H; [reflexivity|]. simpl in *.
  destruct (N.eqb_spec c 13); [subst; tauto|]. rewrite IH by tauto. reflexivity.
Qed.

Lemma py_raw_pattern n : forall p, (forall c, In c p -> c <> 0%N /\ c <> 10%N /\ c <> 39%N) ->
  length p <= n -> forall k, (forall a, p <> a ++ [92%N]) ->
  py_chars true false [39%N] (p ++ repeat 92%N (2 * k) ++ [39%N]) = Some (p ++ repeat 92%N (2 * k), []).
Proof.
  assert (Z : forall k, py_chars true false [39%N] (repeat 92%N (2 * k) ++ [39%N]) = Some (repeat 92%N (2 * k), [])).
  { induction k as [|k IH]; [reflexivity|].
    replace (2 * S k) with (S (S (2 * k))) by lia. cbn [repeat app py_chars starts_with N.eqb Pos.eqb andb].
    change (starts_with [39%N] (92%N :: 92%N :: repeat 92%N (2 * k) ++ [39%N])) with false.
    cbn [orb negb andb]. rewrite IH. reflexivity. }
  induction n as [|n IH]; intros p Hp Hl k He.
  - destruct p; [apply Z|simpl in Hl; lia].
  - destruct p as [|c p]; [apply Z|]. cbn [app py_chars].
    destruct (Hp c (or_introl eq_refl)) as (H0 & H10 & H39).
    assert (starts_with [39%N] (c :: p ++ repeat 92%N (2 * k) ++ [39%N]) = false) as ->.
    { cbn [starts_with]. destruct (N.eqb_spec 39 c); [congruence|reflexivity]. }
    apply N.eqb_neq in H0, H10. rewrite H0, H10. cbn [andb].
    destruct (N.eqb_spec c 92) as [->|Hc].
    + destruct p as [|e p]; [exfalso; apply (He []); reflexivity|]. cbn [app].
      destruct (Hp e (or_intror (or_introl eq_refl))) as (E0 & E10 & E39).
      apply N.eqb_neq in E0, E10. rewrite E0, E10. cbn [orb andb].
      destruct p as [|x p].
      * cbn [app]. rewrite Z. reflexivity.
      * rewrite (IH (x :: p)); [reflexivity| |simpl in *; lia|].
        -- intros y Hy. apply Hp. right. right. exact Hy.
        -- intros a E. apply (He (92%N :: e :: a)). rewrite E. reflexivity.
    + destruct p as [|x p].
      * cbn [app]. rewrite Z. reflexivity.
      * rewrite (IH (x :: p)); [reflexivity| |simpl in *; lia|].
        -- intros y Hy. apply Hp. right. exact Hy.
        -- intros a E. apply (He (c :: a)). rewrite E. reflexivity.
Qed.

(** ** Docstrings *)

Notation q3 := [34; 34; 34]%N.

Lemma no_early_close s r : has_triple s = false -> s <> [] -> (forall a, s <> a ++ [34%N]) ->
  starts_with q3 (s ++ r) = false.
Proof.
  intros Ht Hn He. destruct (starts_with q3 (s ++ r)) eqn:E; [|reflexivity]. exfalso.
  destruct s as [|a s]; [congruence|]. cbn [app starts_with] in E.
  apply andb_true_iff in E as [E1 E]. apply N.eqb_eq in E1. subst a.
  destruct s as [|b s]; [apply (He []); reflexivity|]. cbn [app] in E.
  apply andb_true_iff in E as [E1 E]. apply N.eqb_eq in E1. subst b.
  destruct s as [|c s]; [apply (He [34%N]); reflexivity|]. cbn [app] in E.
  apply andb_true_iff in E as [E1 _]. apply N.eqb_eq in E1. subst c. discriminate.
Qed.

Lemma has_triple_tl c s : has_triple (c :: s) = false -> has_triple s = false.
Proof. cbn [has_triple]. intros H. apply orb_false_iff in H. tauto. Qed.

Lemma close_now raw : py_chars raw true q3 q3 = Some ([], []).
Proof. reflexivity. Qed.

Lemma plain_doc s : has_triple s = false -> (forall a, s <> a ++ [34%N]) -> ~ In 92%N s -> ~ In 0%N s ->
  py_chars false true q3 (s ++ q3) = Some (s, []).
Proof.
  induction s as [|c s IH]; intros Ht He Hb H0; [apply close_now|].
  cbn [app py_chars].
  pose proof (no_early_close (c :: s) q3 Ht ltac:(discriminate) He) as E. cbn [app] in E. rewrite E.
  simpl in Hb, H0. destruct (N.eqb_spec c 0); [subst; tauto|]. destruct (N.eqb_spec c 92); [subst; tauto|].
  rewrite andb_false_r, IH; [reflexivity|eapply has_triple_tl; exact Ht| |tauto|tauto].
  intros a Ea. apply (He (c :: a)). rewrite Ea. reflexivity.
Qed.

Lemma raw_doc n : forall s, length s <= n -> has_triple s = false -> (forall a, s <> a ++ [34%N]) ->
  (forall a, s <> a ++ [92%N]) -> ~ In 0%N s ->
  py_chars true true q3 (s ++ q3) = Some (s, []).
Proof.
  induction n as [|n IH]; intros s Hl Ht He Hb H0.
  { destruct s; [apply close_now|simpl in Hl; lia]. }
  destruct s as [|c s]; [apply close_now|]. cbn [app py_chars].
  pose proof (no_early_close (c :: s) q3 Ht ltac:(discriminate) He) as E. cbn [app] in E. rewrite E.
  simpl in H0. destruct (N.eqb_spec c 0); [subst; tauto|].
  destruct (N.eqb_spec c 92) as [->|].
  - destruct s as [|e s]; [exfalso; apply (Hb []); reflexivity|]. cbn [app].
    simpl in H0. destruct (N.eqb_spec e 0); [subst; tauto|]. rewrite andb_false_r. cbn [orb].
    rewrite IH; [reflexivity|simpl in *; lia|eapply has_triple_tl, has_triple_tl; exact Ht| | |tauto].
    + intros a Ea. apply (He (92%N :: e :: a)). rewrite Ea. reflexivity.
    + intros a Ea. apply (Hb (92%N :: e :: a)). rewrite Ea. reflexivity.
  - rewrite andb_false_r, IH; [reflexivity|simpl in *; lia|eapply has_triple_tl; exact Ht| | |tauto].
    + intros a Ea. apply (He (c :: a)). rewrite Ea. reflexivity.
    + intros a Ea. apply (Hb (c :: a)). rewrite Ea. reflexivity.
Qed.

(** The escaped content. *)
Definition esc3 (s : str) : str := replace_triple (replace_char 92 (s_ "\\") s).

Lemma esc3_triple u : esc3 (34 :: 34 :: 34 :: u)%N = [92; 34; 92; 34; 92; 34]%N ++ esc3 u.
Proof. reflexivity. Qed.

Lemma double_cons c s : replace_char 92 (s_ "\\") (c :: s) =
  (if N.eqb c 92 then [92; 92]%N else [c]) ++ replace_char 92 (s_ "\\") s.
Proof. reflexivity. Qed.

Lemma replace_triple_cons c t : starts_with q3 (c :: t) = false -> replace_triple (c :: t) = c :: replace_triple t.
Proof.
  intros H. cbn [replace_triple]. destruct t as [|b [|d u]]; try reflexivity.
  cbn [starts_with] in H. rewrite andb_true_r in H. rewrite (N.eqb_sym c), (N.eqb_sym b), (N.eqb_sym d).
  rewrite andb_assoc in H. rewrite H. reflexivity.
Qed.

Lemma double_starts s : starts_with [34; 34]%N (replace_char 92 (s_ "\\") s) = starts_with [34; 34]%N s.
Proof.
  destruct s as [|a s]; [reflexivity|]. rewrite double_cons.
  destruct (N.eqb_spec a 92) as [->|Ha]; [reflexivity|]. cbn [app starts_with]. f_equal.
  destruct s as [|b s]; [reflexivity|]. rewrite double_cons.
  destruct (N.eqb_spec b 92) as [->|Hb]; [reflexivity|]. reflexivity.
Qed.

Lemma esc3_cons c t : starts_with q3 (c :: t) = false ->
  esc3 (c :: t) = (if N.eqb c 92 then [92; 92]%N else [c]) ++ esc3 t.
Proof.
  intros H. unfold esc3. rewrite double_cons. destruct (N.eqb_spec c 92) as [->|Hc].
  - cbn [app]. rewrite !replace_triple_cons by reflexivity. reflexivity.
  - cbn [app]. apply replace_triple_cons. cbn [starts_with] in *.
    destruct (N.eqb 34 c); [|reflexivity]. cbn [andb] in *.
    pose proof (double_starts t) as D. cbn [starts_with] in D. rewrite D. exact H.
Qed.

(** What the escaped text begins with. *)
Lemma esc3_hd c t : starts_with q3 (c :: t) = false -> c <> 34%N ->
  exists x r, esc3 (c :: t) = x :: r /\ x <> 34%N.
Proof.
  intros H Hc. rewrite esc3_cons by exact H. destruct (N.eqb_spec c 92).
  - eexists. eexists. split; [reflexivity|discriminate].
  - eexists. eexists. split; [reflexivity|exact Hc].
Qed.

Lemma starts3_not_quote c t : c <> 34%N -> starts_with q3 (c :: t) = false.
Proof. intros H. cbn [starts_with]. destruct (N.eqb_spec 34 c); [congruence|reflexivity]. Qed.

Lemma esc3_no_close c t : starts_with q3 (c :: t) = false -> (forall a, c :: t <> a ++ [34%N]) -> forall r,
  starts_with q3 (c :: esc3 t ++ r) = false.
Proof.
  intros H He r. destruct (N.eqb_spec 34 c) as [<-|Hc]; [|apply starts3_not_quote; congruence].
  destruct t as [|b t]; [exfalso; apply (He []); reflexivity|].
  destruct (N.eqb_spec b 34) as [->|Hb].
  - destruct t as [|d t]; [exfalso; apply (He [34%N]); reflexivity|].
    destruct (N.eqb_spec d 34) as [->|Hd]; [discriminate|].
    rewrite (esc3_cons 34); [|cbn [starts_with]; destruct (N.eqb_spec 34 d); [congruence|reflexivity]].
    destruct (esc3_hd d t (starts3_not_quote d t Hd) Hd) as (x & r' & -> & Hx).
    change (34 =? 92)%N with false. cbn [app starts_with]. destruct (N.eqb_spec 34 x); [congruence|reflexivity].
  - destruct (esc3_hd b t (starts3_not_quote b t Hb) Hb) as (x & r' & -> & Hx).
    cbn [app starts_with]. destruct (N.eqb_spec 34 x); [congruence|reflexivity].
Qed.

Lemma esc_doc n : forall s, length s <= n -> (forall a, s <> a ++ [34%N]) \/ starts_with q3 s = true -> ~ In 0%N s ->
  (forall a, s <> a ++ [34%N]) ->
  py_chars false true q3 (esc3 s ++ q3) = Some (s, []).
Proof.
  induction n as [|n IH]; intros s Hl _ H0 He.
  { destruct s; [apply close_now|simpl in Hl; lia]. }
  destruct s as [|c t]; [apply close_now|].
  destruct (starts_with q3 (c :: t)) eqn:E.
  - apply starts_with_app in E as [u E]. rewrite E in *. clear E c t. cbn [app].
    rewrite esc3_triple. cbn [app].
    assert (IHu : py_chars false true q3 (esc3 u ++ q3) = Some (u, [])).
    { apply IH; [simpl in Hl; lia| | |].
      - left. intros a Ea. apply (He (q3 ++ a)). rewrite Ea. reflexivity.
      - simpl in H0. tauto.
      - intros a Ea. apply (He (q3 ++ a)). rewrite Ea. reflexivity. }
    cbn [py_chars starts_with N.eqb Pos.eqb andb orb].
    change (simple_escape 34) with (Some 34%N). cbn iota. rewrite IHu. reflexivity.
  - rewrite esc3_cons by exact E.
    assert (IHt : py_chars false true q3 (esc3 t ++ q3) = Some (t, [])).
    { apply IH; [simpl in Hl; lia| | |].
      - left. intros a Ea. apply (He (c :: a)). rewrite Ea. reflexivity.
      - simpl in H0. tauto.
      - intros a Ea. apply (He (c :: a)). rewrite Ea. reflexivity. }
    simpl in H0. destruct (N.eqb_spec c 92) as [->|Hc].
    + cbn [app py_chars starts_with N.eqb Pos.eqb andb orb].
      change (simple_escape 92) with (Some 92%N). cbn iota. rewrite IHt. reflexivity.
    + cbn [app py_chars].
      pose proof (esc3_no_close c t E He q3) as Ec. rewrite Ec.
      destruct (N.eqb_spec c 0); [subst; tauto|]. apply N.eqb_neq in Hc. rewrite Hc, andb_false_r, IHt. reflexivity.
Qed.

Lemma has_triple_snoc s : has_triple (s ++ [10%N]) = has_triple s.
Proof.
  induction s as [|a s IH]; [reflexivity|]. cbn [app has_triple]. rewrite IH. f_equal.
  cbn [starts_with]. destruct (N.eqb 34 a); [|reflexivity]. cbn [andb].
  destruct s as [|b s]; [reflexivity|]. cbn [app]. destruct (N.eqb 34 b); [|reflexivity]. cbn [andb].
  destruct s as [|c s]; reflexivity.
Qed.

Lemma esc3_snoc n : forall s, length s <= n -> esc3 (s ++ [10%N]) = esc3 s ++ [10%N].
Proof.
  induction n as [|n IH]; intros s Hl; [destruct s; [reflexivity|simpl in Hl; lia]|].
  destruct s as [|c t]; [reflexivity|].
  destruct (starts_with q3 (c :: t)) eqn:E.
  - apply starts_with_app in E as [u E]. rewrite E in *. cbn [app]. rewrite !esc3_triple.
    rewrite IH by (simpl in Hl; lia). rewrite app_assoc. reflexivity.
  - cbn [app]. rewrite !esc3_cons; [rewrite IH by (simpl in Hl; lia); rewrite app_assoc; reflexivity|exact E|].
    clear -E. cbn [starts_with] in *. destruct (N.eqb 34 c); [|reflexivity]. cbn [andb] in *.
    destruct t as [|b t]; [reflexivity|]. cbn [app]. destruct (N.eqb 34 b); [|reflexivity]. cbn [andb] in *.
    destruct t as [|d t]; [reflexivity|exact E].
Qed.

Lemma in_double c s : In c (replace_char 92 (s_ "\\") s) <-> In c s.
Proof.
  unfold replace_char. rewrite in_flat_map. split.
  - intros (x & Hx & H). destruct (N.eqb_spec x 92) as [->|].
    + cbn in H. destruct H as [<-|[<-|[]]]; exact Hx.
    + destruct H as [<-|[]]. exact Hx.
  - intros H. exists c. split; [exact H|]. destruct (N.eqb_spec c 92) as [->|]; left; reflexivity.
Qed.

Lemma in_replace_triple c n : forall s, length s <= n -> In c (replace_triple s) -> In c s \/ c = 92%N.
Proof.
  induction n as [|n IH]; intros s Hl H; [destruct s; [destruct H|simpl in Hl; lia]|].
  destruct s as [|a t]; [destruct H|]. destruct (starts_with q3 (a :: t)) eqn:E.
  - apply starts_with_app in E as [u E]. rewrite E in *. cbn [app] in *.
    change (replace_triple (34 :: 34 :: 34 :: u)%N) with ([92; 34; 92; 34; 92; 34]%N ++ replace_triple u) in H.
    apply in_app_iff in H as [H|H].
    + simpl in H. simpl. intuition auto.
    + apply IH in H; [|simpl in Hl; lia]. simpl. tauto.
  - rewrite replace_triple_cons in H by exact E. destruct H as [<-|H]; [left; left; reflexivity|].
    apply IH in H; [|simpl in Hl; lia]. simpl. tauto.
Qed.

Lemma in_esc3 c s : In c (esc3 s) -> In c s \/ c = 92%N.
Proof.
  intros H. apply in_replace_triple with (n := length (replace_char 92 (s_ "\\") s)) in H; [|lia].
  rewrite in_double in H. exact H.
Qed.

Lemma splitlines_nonempty s : s <> [] -> splitlines s <> [].
Proof.
  intros H E. unfold splitlines in E. apply map_eq_nil in E.
  pose proof (splitlines_keep_concat s) as K. unfold splitlines_keep in K. rewrite E in K. simpl in K. congruence.
Qed.

Definition doc_content (v : str) : str := if has_triple v then esc3 v else v.
Definition doc_prefix (v : str) : str := if has_triple v then [] else if existsb (N.eqb 92) v then s_ "r" else [].

Lemma existsb_in c s : existsb (N.eqb c) s = true <-> In c s.
Proof.
  rewrite existsb_exists. split.
  - intros (x & Hx & E). apply N.eqb_eq in E. subst. exact Hx.
  - intros H. exists c. split; [exact H|apply N.eqb_refl].
Qed.

(** The docstring is the content of [v] in triple quotes. *)
Lemma doc_value v : ~ In 0%N v -> ~ In 13%N v -> (forall a, v <> a ++ [34%N]) -> (forall a, v <> a ++ [92%N]) ->
  py_docstring (doc_prefix v ++ q3 ++ doc_content v ++ q3) = Some v.
Proof.
  intros H0 H13 Hq Hb. unfold py_docstring.
  assert (N13 : ~ In 13%N (doc_prefix v ++ q3 ++ doc_content v ++ q3)).
  { intros I. rewrite !in_app_iff in I. assert (Q : ~ In 13%N q3) by (vm_compute; intuition discriminate).
    destruct I as [I|[I|[I|I]]]; try tauto.
    - unfold doc_prefix in I. destruct (has_triple v); [destruct I|].
      destruct (existsb (N.eqb 92) v); [vm_compute in I; intuition discriminate|destruct I].
    - unfold doc_content in I. destruct (has_triple v); [|tauto].
      apply in_esc3 in I as [I|I]; [tauto|discriminate]. }
  rewrite py_newlines_id by exact N13.
  unfold doc_prefix, doc_content. destruct (has_triple v) eqn:T; [|destruct (existsb (N.eqb 92) v) eqn:B].
  - change ([] ++ q3 ++ esc3 v ++ q3) with (q3 ++ esc3 v ++ q3).
    change (s_ """""""") with q3.
    assert (starts_with q3 (q3 ++ esc3 v ++ q3) = true) as -> by (apply starts_with_app; eauto).
    change (skipn 3 (q3 ++ esc3 v ++ q3)) with (esc3 v ++ q3).
    rewrite (esc_doc (length v)); auto.
  - change (s_ """""""") with q3. change (starts_with q3 (s_ "r" ++ q3 ++ v ++ q3)) with false. cbn iota.
    assert (starts_with (s_ "r" ++ q3) (s_ "r" ++ q3 ++ v ++ q3) = true) as ->
      by (apply starts_with_app; eexists; rewrite <- app_assoc; reflexivity).
    change (skipn 4 (s_ "r" ++ q3 ++ v ++ q3)) with (v ++ q3).
    rewrite (raw_doc (length v)); auto.
  - change ([] ++ q3 ++ v ++ q3) with (q3 ++ v ++ q3).
    change (s_ """""""") with q3.
    assert (starts_with q3 (q3 ++ v ++ q3) = true) as -> by (apply starts_with_app; eauto).
    change (skipn 3 (q3 ++ v ++ q3)) with (v ++ q3).
    rewrite plain_doc; auto. intros I. apply existsb_in in I. congruence.
Qed.

Lemma has_triple_nl s : has_triple (10%N :: s ++ [10%N]) = has_triple s.
Proof. cbn [has_triple]. rewrite has_triple_snoc. reflexivity. Qed.

Lemma snoc_last {A} (a b : list A) x y : a ++ [x] = b ++ [y] -> x = y.
Proof. intros E. apply app_inj_tail in E. tauto. Qed.

Lemma existsb_nl s : existsb (N.eqb 92) (10%N :: s ++ [10%N]) = existsb (N.eqb 92) s.
Proof.
  cbn [existsb]. change (92 =? 10)%N with false. cbn [orb]. rewrite existsb_app. cbn [existsb].
  change (92 =? 10)%N with false. cbn [orb]. apply orb_false_r.
Qed.

Lemma docstring_single v : length (splitlines v) = 1 -> docstring v = doc_prefix v ++ q3 ++ doc_content v ++ q3.
Proof.
  intros H. unfold docstring, doc_prefix, doc_content. rewrite H.
  destruct (has_triple v); [reflexivity|]. destruct (existsb (N.eqb 92) v); reflexivity.
Qed.

Lemma docstring_multi v : 1 < length (splitlines v) ->
  docstring v = doc_prefix (10%N :: v ++ [10%N]) ++ q3 ++ doc_content (10%N :: v ++ [10%N]) ++ q3.
Proof.
  intros H. unfold docstring, doc_prefix, doc_content. rewrite has_triple_nl, existsb_nl.
  destruct (length (splitlines v)) as [|[|k]]; [lia|lia|].
  destruct (has_triple v).
  - rewrite esc3_cons by reflexivity. rewrite (esc3_snoc (length v)) by lia.
    change (10 =? 92)%N with false. cbn iota. rewrite <- !app_assoc. reflexivity.
  - destruct (existsb (N.eqb 92) v); rewrite <- ?app_assoc; cbn [app]; rewrite <- ?app_assoc; reflexivity.
Qed.

(** ** Comments *)

Definition cline (marker line : str) : str := if blank line then marker else marker ++ s_ " " ++ line.

Lemma comment_lines marker text : comment marker text = join [10%N] (map (cline marker) (splitlines text)).
Proof. reflexivity. Qed.

Section Comments.
  Variables (marker : str) (eol : chr -> bool) (splice : bool).
  Hypothesis eol_lf : eol 10%N = true.
  Hypothesis eol_breaks : forall c, eol c = true -> is_linebreak c = true.
  Hypothesis marker_ok : forall c, In c marker -> eol c = false /\ c <> 92%N.

  (** The lines with their ends. *)
  Definition closed_lines (ls : list str) : str := concat (map (fun l => l ++ [10%N]) ls).

  Definition sane (l : str) : Prop := forall c, In c l -> eol c = false.
  Definition spliced (l : str) : Prop := splice = true /\ exists a, l = a ++ [92%N].

  Lemma after_line l rest : sane l -> ~ spliced l -> after_comment eol splice (l ++ 10%N :: rest) = rest.
  Proof.
    induction l as [|c l IH]; intros Hs Hn.
    - cbn [app after_comment]. rewrite eol_lf. reflexivity.
    - cbn [app after_comment]. rewrite (Hs c (or_introl eq_refl)).
      assert (IH' : after_comment eol splice (l ++ 10%N :: rest) = rest).
      { apply IH; [intros x Hx; apply Hs; right; exact Hx|].
        intros [Es [a Ea]]. apply Hn. split; [exact Es|]. exists (c :: a). rewrite Ea. reflexivity. }
      destruct (splice && N.eqb c 92)%bool eqn:E; [|exact IH'].
      apply andb_true_iff in E as [Es Ec]. apply N.eqb_eq in Ec. subst c.
      destruct l as [|d l]; [exfalso; apply Hn; split; [exact Es|]; exists []; reflexivity|].
      cbn [app]. destruct (N.eqb_spec d 10) as [->|]; [|exact IH'].
      specialize (Hs 10%N (or_intror (or_introl eq_refl))). congruence.
  Qed.

  Lemma after_spliced l rest : splice = true -> sane (l ++ [92%N]) ->
    after_comment eol splice ((l ++ [92%N]) ++ 10%N :: rest) = after_comment eol splice rest.
  Proof.
    intros Es. rewrite Es. induction l as [|c l IH]; intros Hs.
    - cbn [app after_comment]. rewrite (Hs 92%N (or_introl eq_refl)). cbn [andb N.eqb Pos.eqb]. reflexivity.
    - cbn [app after_comment]. rewrite (Hs c (or_introl eq_refl)).
      assert (Hl : sane (l ++ [92%N])) by (intros x Hx; apply Hs; right; exact Hx).
      specialize (IH Hl). destruct (true && N.eqb c 92)%bool eqn:E; [|exact IH].
      destruct ((l ++ [92%N]) ++ 10%N :: rest) as [|d s''] eqn:El; [destruct l; discriminate|].
      destruct (N.eqb_spec d 10) as [->|]; [|exact IH].
      destruct l as [|x l]; cbn [app] in El; [discriminate|injection El as -> _].
      exfalso. specialize (Hl 10%N (or_introl eq_refl)). congruence.
  Qed.

  (** Inside a comment: some line ends it. *)
  Lemma after_lines ls code : ls <> [] -> (forall l, In l ls -> sane l) -> ~ spliced (last ls []) ->
    exists ls', length ls' < length ls /\ (exists p, ls = p ++ ls') /\
      after_comment eol splice (closed_lines ls ++ code) = closed_lines ls' ++ code.
  Proof.
    induction ls as [|l ls IH]; intros Hn Hs Hl; [congruence|].
    unfold closed_lines. cbn [map concat]. fold (closed_lines ls).
    assert (D : spliced l \/ ~ spliced l).
    { unfold spliced. destruct splice; [|right; intros [? _]; discriminate].
      destruct (ends_with [92%N] l) eqn:E.
      - left. split; [reflexivity|]. apply ends_with_app. exact E.
      - right. intros [_ H]. apply (ends_with_app [92%N] l) in H. congruence. }
    destruct D as [D|D].
    - destruct ls as [|l2 ls].
      + simpl in Hl. contradiction.
      + destruct D as [Es [a ->]]. destruct IH as (ls' & L & (p & P) & E);
          [discriminate|intros x Hx; apply Hs; right; exact Hx|exact Hl|].
        exists ls'. split; [simpl in *; lia|]. split; [exists ((a ++ [92%N]) :: p); rewrite P; reflexivity|].
        fold (closed_lines ls'). rewrite <- E.
        replace ((((a ++ [92%N]) ++ [10%N]) ++ closed_lines (l2 :: ls)) ++ code)
          with ((a ++ [92%N]) ++ 10%N :: closed_lines (l2 :: ls) ++ code) by (rewrite <- !app_assoc; reflexivity).
        rewrite after_spliced; [reflexivity|exact Es|].
        apply Hs. left. reflexivity.
    - exists ls. split; [simpl; lia|]. split; [exists [l]; reflexivity|].
      rewrite <- !app_assoc. cbn [app]. rewrite after_line; [reflexivity|apply Hs; left; reflexivity|exact D].
  Qed.

  Lemma cline_marker l : exists r, cline marker l = marker ++ r /\ (r = [] \/ r = s_ " " ++ l).
  Proof.
    unfold cline. destruct (blank l); [exists []|exists (s_ " " ++ l)]; rewrite ?app_nil_r; auto.
  Qed.

  Lemma cline_sane l : (forall c, In c l -> is_linebreak c = false) -> sane (cline marker l).
  Proof.
    intros H. assert (A : sane l). { intros c Hc. specialize (H c Hc). destruct (eol c) eqn:E; [|reflexivity].
      apply eol_breaks in E. congruence. }
    assert (B : sane marker) by (intros c Hc; apply marker_ok; exact Hc).
    unfold cline. destruct (blank l); [exact B|]. intros c Hc. rewrite !in_app_iff in Hc.
    destruct Hc as [Hc|[Hc|Hc]]; [auto| |auto]. destruct Hc as [<-|[]].
    destruct (eol 32%N) eqn:E; [|exact E]. apply eol_breaks in E. discriminate.
  Qed.

  Lemma cline_not_spliced l : ~ spliced l -> ~ spliced (cline marker l).
  Proof.
    intros H [Es [a E]]. unfold cline in E. destruct (blank l).
    - assert (I : In 92%N marker) by (rewrite E; apply in_app_iff; right; left; reflexivity).
      apply marker_ok in I. tauto.
    - destruct l as [|c l] using rev_ind.
      + rewrite app_nil_r in E. apply app_inj_tail in E as [_ E]. discriminate.
      + rewrite !app_assoc in E. apply app_inj_tail in E as [_ ->]. apply H. split; [exact Es|]. exists l. reflexivity.
  Qed.

  Lemma uncomment_lines n : forall ls code, length ls <= n -> starts_with marker code = false ->
    (forall l, In l ls -> forall c, In c l -> is_linebreak c = false) ->
    (ls <> [] -> ~ spliced (last ls [])) ->
    forall fuel, length ls < fuel ->
    uncomment fuel marker eol splice (closed_lines (map (cline marker) ls) ++ code) = code.
  Proof.
    induction n as [|n IH]; intros ls code Hl Hc Hb Hs fuel Hf.
    - destruct ls; [|simpl in Hl; lia]. destruct fuel; cbn [closed_lines map concat app uncomment]; [reflexivity|].
      rewrite Hc. reflexivity.
    - destruct ls as [|l ls].
      { destruct fuel; cbn [closed_lines map concat app uncomment]; [reflexivity|]. rewrite Hc. reflexivity. }
      destruct fuel as [|fuel]; [lia|]. cbn [uncomment].
      destruct (cline_marker l) as (r & Er & Hr).
      assert (Ec : closed_lines (map (cline marker) (l :: ls)) ++ code =
                   marker ++ closed_lines (r :: map (cline marker) ls) ++ code).
      { unfold closed_lines. cbn [map concat]. rewrite Er, <- !app_assoc. reflexivity. }
      rewrite Ec.
      assert (starts_with marker (marker ++ closed_lines (r :: map (cline marker) ls) ++ code) = true) as ->
        by (apply starts_with_app; eauto).
      rewrite skipn_app, skipn_all, Nat.sub_diag. cbn [skipn app].
      destruct (after_lines (r :: map (cline marker) ls) code) as (ls' & L & (p & P) & E).
      + discriminate.
      + intros x [<-|Hx].
        * pose proof (cline_sane l (Hb l (or_introl eq_refl))) as S. rewrite Er in S. intros c Hc'. apply S.
          apply in_app_iff. right. exact Hc'.
        * apply in_map_iff in Hx as (y & <- & Hy). apply cline_sane. apply Hb. right. exact Hy.
      + specialize (Hs ltac:(discriminate)). destruct ls as [|l2 ls].
        * simpl in Hs. cbn [map last]. apply cline_not_spliced in Hs. intros [Es [a Ea]]. apply Hs.
          split; [exact Es|]. rewrite Er, Ea. exists (marker ++ a). rewrite app_assoc. reflexivity.
        * cbn [map]. change (last (r :: cline marker l2 :: map (cline marker) ls) []) with
            (last (map (cline marker) (l2 :: ls)) []).
          change (last (l :: l2 :: ls) []) with (last (l2 :: ls) []) in Hs.
          clear -Hs marker_ok. destruct (@exists_last _ (l2 :: ls) ltac:(discriminate)) as (a & x & E).
          rewrite E in *. rewrite last_last in Hs. rewrite map_app. cbn [map]. rewrite last_last.
          apply cline_not_spliced. exact Hs.
      + rewrite E.
        assert (T : exists q, ls' = map (cline marker) q /\ exists p', ls = p' ++ q).
        { destruct p as [|x p]; [cbn [app] in P; rewrite <- P in L; lia|].
          cbn [app] in P. injection P as _ P. symmetry in P.
          destruct (map_eq_app _ _ _ _ (eq_sym P)) as (l1 & l3 & -> & _ & <-). exists l3. split; [reflexivity|eauto]. }
        destruct T as (q & -> & (p' & ->)). apply IH.
        * cbn [length] in Hl. rewrite app_length in Hl. lia.
        * exact Hc.
        * intros x Hx. apply Hb. right. apply in_app_iff. right. exact Hx.
        * intros Hq. specialize (Hs ltac:(discriminate)). destruct (@exists_last _ q Hq) as (a & x & Ea).
          rewrite Ea in *. rewrite last_last. rewrite app_assoc, app_comm_cons, last_last in Hs. exact Hs.
        * cbn [length] in Hf. rewrite app_length in Hf. lia.
  Qed.

  Lemma join_closed ls : ls <> [] -> join [10%N] ls ++ [10%N] = closed_lines ls.
  Proof.
    induction ls as [|l ls IH]; intros H; [congruence|]. destruct ls as [|l2 ls].
    - unfold closed_lines. cbn [join map concat]. rewrite app_nil_r. reflexivity.
    - change (join [10%N] (l :: l2 :: ls)) with (l ++ [10%N] ++ join [10%N] (l2 :: ls)).
      rewrite <- !app_assoc. rewrite IH by discriminate. unfold closed_lines. cbn [map concat].
      rewrite <- !app_assoc. reflexivity.
  Qed.

  Lemma comment_hidden text code fuel : text <> [] -> starts_with marker code = false ->
    (splice = true -> forall a, last (splitlines text) [] <> a ++ [92%N]) ->
    length (splitlines text) < fuel ->
    uncomment fuel marker eol splice (comment marker text ++ 10%N :: code) = code.
  Proof.
    intros Ht Hc Hs Hf. rewrite comment_lines.
    assert (Hn : splitlines text <> []) by (apply splitlines_nonempty; exact Ht).
    replace (join [10%N] (map (cline marker) (splitlines text)) ++ 10%N :: code)
      with ((join [10%N] (map (cline marker) (splitlines text)) ++ [10%N]) ++ code)
      by (rewrite <- app_assoc; reflexivity).
    rewrite join_closed by (intros E; apply map_eq_nil in E; congruence).
    apply (uncomment_lines (length (splitlines text))); [lia|exact Hc| | |exact Hf].
    - intros l Hl c Hin. eapply splitlines_no_break; eauto.
    - intros _ [Es [a Ea]]. exact (Hs Es a Ea).
  Qed.
End Comments.
