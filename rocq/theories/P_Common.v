(** Facts about numbers and association lists shared by the proofs about the
    generated Go and C++ code. *)
From Verif Require Import Base M_Naming M_Dec M_Schema M_Num S_Conform S_Common.
From Coq Require Import String List Arith NArith ZArith Bool Lia Floats.SpecFloat Permutation.
Import ListNotations.

(** ** Numbers *)

Lemma pow2_pos k : (0 <= k)%Z -> (0 < 2 ^ k)%Z.
Proof. intros. apply Z.pow_pos_nonneg; lia. Qed.

Lemma some_inj {A} (a b : A) : Some a = Some b -> a = b.
Proof. congruence. Qed.

Lemma float_is_trunc f z : float_is f z -> is_trunc f = true /\ trunc_Z f = z.
Proof.
  unfold float_is. intros H. assert (E : trunc_Z f = z).
  { destruct f as [s|s| |s m e]; cbn [cmp_float_Z trunc_Z] in *.
    - apply some_inj, Z.compare_eq in H. lia.
    - destruct s; discriminate.
    - discriminate.
    - apply some_inj in H. destruct (Z.leb_spec 0 e).
      + apply Z.compare_eq in H. rewrite <- H. destruct s; [|reflexivity].
        change (Z.neg m) with (- Z.pos m)%Z. ring.
      + apply Z.compare_eq in H. pose proof (pow2_pos (- e) ltac:(lia)).
        destruct s.
        * change (Z.neg m) with (- Z.pos m)%Z in H.
          replace (Z.pos m) with (- z * 2 ^ (- e))%Z by lia. rewrite Z.div_mul by lia. lia.
        * rewrite H. apply Z.div_mul. lia. }
  split; [|exact E]. unfold is_trunc. rewrite E.
  destruct f; try reflexivity; try rewrite H; try reflexivity. discriminate.
Qed.

Lemma trunc_float_is f : is_trunc f = true -> is_finite f = true -> float_is f (trunc_Z f).
Proof.
  unfold is_trunc, float_is. intros H F. destruct f; try discriminate;
    destruct (cmp_float_Z _ _) as [[]|]; congruence.
Qed.

Lemma float_is_unique f z z' : float_is f z -> float_is f z' -> z = z'.
Proof. intros H1 H2. apply float_is_trunc in H1, H2. destruct H1, H2. congruence. Qed.

Lemma float_is_cmp f z w : float_is f z -> cmp_float_Z f w = Some (Z.compare z w).
Proof.
  unfold float_is. intros H. destruct f as [s|s| |s m e]; cbn [cmp_float_Z] in *.
  - apply some_inj, Z.compare_eq in H. subst. reflexivity.
  - destruct s; discriminate.
  - discriminate.
  - apply some_inj in H. f_equal. destruct (Z.leb_spec 0 e).
    + apply Z.compare_eq in H. rewrite H. reflexivity.
    + apply Z.compare_eq in H. rewrite H. pose proof (pow2_pos (- e) ltac:(lia)) as P.
      generalize dependent (2 ^ (- e))%Z. intros q _ P.
      destruct (Z.compare_spec z w), (Z.compare_spec (z * q) (w * q)); try reflexivity; nia.
Qed.

Lemma representable_const m : representable m -> num_const m = m.
Proof.
  intros (f & H & F). unfold num_const. rewrite H. apply float_is_trunc in F. apply F.
Qed.

Lemma float_is_finite f z : float_is f z -> is_finite f = true.
Proof. unfold float_is. destruct f as [|[]| |]; simpl; congruence. Qed.

Lemma over_Z ex z m : over ex (Some (Z.compare z m)) = true <-> if ex : bool then (m < z)%Z else (m <= z)%Z.
Proof. unfold over. destruct (Z.compare_spec z m), ex; simpl; split; intros; try congruence; lia. Qed.
Lemma under_Z ex z m : under ex (Some (Z.compare z m)) = true <-> if ex : bool then (z < m)%Z else (z <= m)%Z.
Proof. unfold under. destruct (Z.compare_spec z m), ex; simpl; split; intros; try congruence; lia. Qed.
Lemma over_f ex c : over ex c = true <-> c = Some Gt \/ (ex = false /\ c = Some Eq).
Proof. unfold over. destruct c as [[]|], ex; simpl; intuition congruence. Qed.
Lemma under_f ex c : under ex c = true <-> c = Some Lt \/ (ex = false /\ c = Some Eq).
Proof. unfold under. destruct c as [[]|], ex; simpl; intuition congruence. Qed.

(** ** Lists *)

Lemma lookup_map_snd {A B} (f : A -> B) k (l : list (str * A)) :
  lookup k (map (fun kv => (fst kv, f (snd kv))) l) = option_map f (lookup k l).
Proof.
  induction l as [|[k' v] l IH]; simpl; [reflexivity|].
  destruct (str_eqb k k'); [reflexivity|exact IH].
Qed.

Lemma keys_map_snd {A B} (f : A -> B) (l : list (str * A)) :
  keys (map (fun kv => (fst kv, f (snd kv))) l) = keys l.
Proof. unfold keys. rewrite map_map. reflexivity. Qed.

Lemma keys_upsert_same {A} k (x : A) l : In k (keys l) -> keys (upsert k x l) = keys l.
Proof.
  induction l as [|[k' y] l IH]; simpl; [tauto|]. intros [->|H].
  - rewrite str_eqb_refl. reflexivity.
  - destruct (str_eqb k k') eqn:E; simpl; [apply str_eqb_eq in E; subst; reflexivity|].
    f_equal. apply IH. exact H.
Qed.

Lemma In_keys {A} k (x : A) l : In (k, x) l -> In k (keys l).
Proof. intros H. apply (in_map fst) in H. exact H. Qed.

Lemma keys_In {A} k (l : list (str * A)) : In k (keys l) -> exists x, In (k, x) l.
Proof.
  intros H. unfold keys in H. apply in_map_iff in H as ([k' x] & <- & H). eauto.
Qed.

Lemma Permutation_keys {A} (l l' : list (str * A)) : Permutation l l' -> Permutation (keys l) (keys l').
Proof. apply Permutation_map. Qed.

Lemma jfloat_inj f g : JFloat f = JFloat g -> g = f. Proof. congruence. Qed.
Lemma jstr_inj f g : JStr f = JStr g -> g = f. Proof. congruence. Qed.

Lemma Forall2_len {A B} (P : A -> B -> Prop) l m : Forall2 P l m -> length l = length m.
Proof. induction 1; simpl; congruence. Qed.

Lemma NoDup_app_parts {A} (a b : list A) : NoDup (a ++ b) -> NoDup a /\ NoDup b /\ forall x, In x a -> ~ In x b.
Proof.
  induction a as [|x a IH]; intros H; [repeat split; auto; constructor|]. simpl in H.
  inversion H as [|? ? N1 N2]; subst. destruct (IH N2) as (A1 & A2 & A3). rewrite in_app_iff in N1.
  repeat split; auto; [constructor; tauto|]. intros y [<-|Hy]; [tauto|auto].
Qed.

