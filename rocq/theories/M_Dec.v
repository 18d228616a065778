(** Decimal notation of natural numbers and integers: Python's [str(int)] and
    [int(str)] on digit strings. *)
From Verif Require Import Base.
From Coq Require Import List NArith ZArith Bool Lia Arith Decimal DecimalFacts DecimalN.
Import ListNotations.

Fixpoint uint_chars (u : uint) : str :=
  match u with
  | Nil => []
  | D0 u => 48%N :: uint_chars u
  | D1 u => 49%N :: uint_chars u
  | D2 u => 50%N :: uint_chars u
  | D3 u => 51%N :: uint_chars u
  | D4 u => 52%N :: uint_chars u
  | D5 u => 53%N :: uint_chars u
  | D6 u => 54%N :: uint_chars u
  | D7 u => 55%N :: uint_chars u
  | D8 u => 56%N :: uint_chars u
  | D9 u => 57%N :: uint_chars u
  end.

(** [str(n)] for a non-negative int. *)
Definition dec_N (n : N) : str := uint_chars (N.to_uint n).
Definition dec_nat (n : nat) : str := dec_N (N.of_nat n).
(** [str(z)] *)
Definition dec_Z (z : Z) : str :=
  match z with
  | Zneg p => 45%N :: dec_N (Npos p)
  | _ => dec_N (Z.to_N z)
  end.

(** [int(s)] for a string of digits; [acc] is the value of the digits read. *)
Fixpoint num_go (acc : N) (s : str) : N :=
  match s with
  | [] => acc
  | c :: s' => num_go (acc * 10 + (c - 48))%N s'
  end.
Definition num_of (s : str) : N := num_go 0 s.

Lemma uint_chars_digits u : forallb is_digit (uint_chars u) = true.
Proof. induction u; simpl; auto. Qed.

Lemma num_go_app s t acc : num_go acc (s ++ t) = num_go (num_go acc s) t.
Proof. revert acc; induction s as [|c s IH]; intros acc; simpl; [reflexivity|apply IH]. Qed.

Lemma num_go_pos u : forall p, num_go (Npos p) (uint_chars u) = Npos (Pos.of_uint_acc u p).
Proof.
  induction u; intros p; [reflexivity|..]; cbn [uint_chars num_go Pos.of_uint_acc];
    rewrite <- IHu; f_equal; change (Npos p * 10)%N with (Npos (p * 10)); simpl N.sub; cbn [N.add]; f_equal; lia.
Qed.

Lemma num_of_uint u : num_of (uint_chars u) = N.of_uint u.
Proof.
  unfold num_of, N.of_uint. induction u; [reflexivity|exact IHu|..];
    cbn [uint_chars num_go Pos.of_uint]; rewrite <- num_go_pos; reflexivity.
Qed.

Lemma num_of_dec n : num_of (dec_N n) = n.
Proof. unfold dec_N. rewrite num_of_uint. apply DecimalN.Unsigned.of_to. Qed.

Lemma dec_N_digits n : forallb is_digit (dec_N n) = true.
Proof. apply uint_chars_digits. Qed.

Lemma dec_N_inj n m : dec_N n = dec_N m -> n = m.
Proof. intros H. rewrite <- (num_of_dec n), <- (num_of_dec m), H. reflexivity. Qed.

(** The shape [0|[1-9][0-9]*]. *)
Lemma dec_N_shape n : dec_N n = [48%N] \/
  exists c s, dec_N n = c :: s /\ (49 <=? c)%N && (c <=? 57)%N = true /\ forallb is_digit s = true.
Proof.
  unfold dec_N.
  assert (H : unorm (N.to_uint n) = N.to_uint n).
  { rewrite <- DecimalN.Unsigned.to_of. rewrite DecimalN.Unsigned.of_to. reflexivity. }
  assert (HN : forall d, nzhead (N.to_uint n) = D0 d -> False).
  { intros d E. exact (nzhead_nonzero _ _ E). }
  unfold unorm in H. destruct (nzhead (N.to_uint n)) as [|u|u|u|u|u|u|u|u|u|u] eqn:E; rewrite <- H.
  - left. reflexivity.
  - exfalso. eapply HN. reflexivity.
  - right; do 2 eexists; split; [reflexivity|]; split; [reflexivity|apply uint_chars_digits].
  - right; do 2 eexists; split; [reflexivity|]; split; [reflexivity|apply uint_chars_digits].
  - right; do 2 eexists; split; [reflexivity|]; split; [reflexivity|apply uint_chars_digits].
  - right; do 2 eexists; split; [reflexivity|]; split; [reflexivity|apply uint_chars_digits].
  - right; do 2 eexists; split; [reflexivity|]; split; [reflexivity|apply uint_chars_digits].
  - right; do 2 eexists; split; [reflexivity|]; split; [reflexivity|apply uint_chars_digits].
  - right; do 2 eexists; split; [reflexivity|]; split; [reflexivity|apply uint_chars_digits].
  - right; do 2 eexists; split; [reflexivity|]; split; [reflexivity|apply uint_chars_digits].
  - right; do 2 eexists; split; [reflexivity|]; split; [reflexivity|apply uint_chars_digits].
Qed.

Lemma dec_N_nonempty n : dec_N n <> [].
Proof. destruct (dec_N_shape n) as [->|(c & s & -> & _)]; discriminate. Qed.
