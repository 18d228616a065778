From Verif Require Import Base M_Errors.
From Coq Require Import List ZArith NArith Bool Lia.
Import ListNotations.

Lemma firstn_snoc {A} n (l : list A) x :
  firstn n (l ++ [x]) = if (length l <? n)%nat then l ++ [x] else firstn n l.
Proof.
  destruct (length l <? n)%nat eqn:E.
  - apply Nat.ltb_lt in E. apply firstn_all2. rewrite app_length. simpl. lia.
  - apply Nat.ltb_ge in E. rewrite firstn_app.
    replace (n - length l)%nat with 0%nat by lia. simpl. apply app_nil_r.
Qed.

Lemma py_log {E} cap (es : list E) :
  fold_left py_add es (py_errors_new cap) = PyErrors cap (firstn (Z.to_nat cap) es).
Proof.
  induction es as [|e es IH] using rev_ind.
  - simpl. rewrite firstn_nil. reflexivity.
  - rewrite fold_left_app, IH. simpl. unfold py_add. simpl.
    rewrite firstn_snoc, firstn_length.
    destruct (Nat.ltb_spec (length es) (Z.to_nat cap)) as [H|H].
    + rewrite Nat.min_r by lia. replace (_ <? cap)%Z with true by (symmetry; apply Z.ltb_lt; lia).
      rewrite firstn_all2 by lia. reflexivity.
    + rewrite Nat.min_l by lia. replace (_ <? cap)%Z with false by (symmetry; apply Z.ltb_ge; lia).
      reflexivity.
Qed.

Lemma go_log {E} cap (es : list E) :
  fold_left go_add es (go_errors_new cap) =
  GoErrors cap (if (cap =? 0)%N then es else firstn (N.to_nat cap) es).
Proof.
  induction es as [|e es IH] using rev_ind.
  - simpl. rewrite firstn_nil. destruct (cap =? 0)%N; reflexivity.
  - rewrite fold_left_app, IH. simpl. unfold go_add. simpl.
    destruct (cap =? 0)%N eqn:E0; [reflexivity|]. simpl. apply N.eqb_neq in E0.
    rewrite firstn_snoc, firstn_length.
    destruct (Nat.ltb_spec (length es) (N.to_nat cap)) as [H|H].
    + rewrite Nat.min_r by lia. replace (_ <? cap)%N with true by (symmetry; apply N.ltb_lt; lia).
      rewrite firstn_all2 by lia. reflexivity.
    + rewrite Nat.min_l by lia. replace (_ <? cap)%N with false by (symmetry; apply N.ltb_ge; lia).
      reflexivity.
Qed.

Lemma cpp_log {E} cap (es : list E) :
  fold_left cpp_add es (cpp_errors_new cap) = CppErrors cap (firstn (N.to_nat cap) es).
Proof.
  induction es as [|e es IH] using rev_ind.
  - simpl. rewrite firstn_nil. reflexivity.
  - rewrite fold_left_app, IH. simpl. unfold cpp_add. simpl.
    rewrite firstn_snoc, firstn_length.
    destruct (Nat.ltb_spec (length es) (N.to_nat cap)) as [H|H].
    + rewrite Nat.min_r by lia. replace (_ <? cap)%N with true by (symmetry; apply N.ltb_lt; lia).
      rewrite firstn_all2 by lia. reflexivity.
    + rewrite Nat.min_l by lia. replace (_ <? cap)%N with false by (symmetry; apply N.ltb_ge; lia).
      reflexivity.
Qed.

Lemma length_eqb_nil {A} (l : list A) : (length l =? 0)%nat = true <-> l = [].
Proof. destruct l; simpl; split; congruence. Qed.

Lemma py_container {E} cap (es : list E) :
  let st := fold_left py_add es (py_errors_new cap) in
  py_values st = firstn (Z.to_nat cap) es /\
  (Z.of_nat (length (py_values st)) <= Z.max 0 cap)%Z /\
  ((0 <= cap)%Z -> (py_full st = true <-> (Z.of_nat (length es) >= cap)%Z)) /\
  ((0 < cap)%Z -> (py_empty st = true <-> es = [])).
Proof.
  intro st. unfold st. rewrite py_log. simpl. unfold py_full, py_empty. simpl.
  rewrite !firstn_length. repeat split.
  - lia.
  - rewrite Z.eqb_eq. lia.
  - rewrite Z.eqb_eq. lia.
  - intros H1. apply Nat.eqb_eq in H1. destruct es; [reflexivity|]. simpl in H1. lia.
  - intros ->. apply Nat.eqb_eq. simpl. lia.
Qed.

Lemma go_container {E} cap (es : list E) :
  let st := fold_left go_add es (go_errors_new cap) in
  (cap = 0%N -> go_values st = es /\ go_full st = false) /\
  (cap <> 0%N -> go_values st = firstn (N.to_nat cap) es /\
     (go_full st = true <-> (N.of_nat (length es) >= cap)%N)) /\
  (go_empty st = true <-> es = []).
Proof.
  intro st. unfold st. rewrite go_log. simpl. unfold go_full, go_empty. simpl.
  destruct (cap =? 0)%N eqn:E0; [apply N.eqb_eq in E0; subst|apply N.eqb_neq in E0].
  - repeat split; try congruence.
    + intros H. apply N.eqb_eq in H. destruct es; [reflexivity|]. simpl in H. lia.
    + intros ->. reflexivity.
  - rewrite firstn_length. simpl. repeat split; try congruence.
    + rewrite N.eqb_eq. lia.
    + rewrite N.eqb_eq. lia.
    + rewrite N.eqb_eq. intros H. destruct es; [reflexivity|]. simpl in H. lia.
    + intros ->. apply N.eqb_eq. simpl. lia.
Qed.

Lemma cpp_container {E} cap (es : list E) :
  let st := fold_left cpp_add es (cpp_errors_new cap) in
  cpp_values st = firstn (N.to_nat cap) es /\
  (N.of_nat (length (cpp_values st)) <= cap)%N /\
  (cpp_full st = true <-> (N.of_nat (length es) >= cap)%N) /\
  ((0 < cap)%N -> (cpp_empty st = true <-> es = [])).
Proof.
  intro st. unfold st. rewrite cpp_log. simpl. unfold cpp_full, cpp_empty. simpl.
  rewrite !firstn_length. repeat split.
  - lia.
  - rewrite N.eqb_eq. lia.
  - rewrite N.eqb_eq. lia.
  - destruct es; [reflexivity|]. replace (N.to_nat cap) with (S (N.to_nat cap - 1)) by lia.
    simpl. discriminate.
  - intros ->. rewrite firstn_nil. reflexivity.
Qed.
