(** Proofs about names in languages with blocks. *)
From Coq Require Import String List Arith NArith ZArith Bool Lia.
From Verif Require Import Base M_Naming M_Schema M_Dec M_Text M_TypeGraph M_GoImports M_GoScope S_TypeGraph S_Scope M_Scope P_AutoID P_Scope.
Import ListNotations.
Open Scope list_scope.
Local Open Scope nat_scope.

(** * Numbered names *)

Definition stem_of (x : str) : str := takewhile (fun c => negb (is_digit c)) x.
Lemma stem_of_auto stem k : forallb (fun c => negb (is_digit c)) stem = true -> stem_of (stem ++ dec_nat k) = stem.
Proof.
  intros H. unfold stem_of. induction stem as [|c s IH]; cbn [app].
  - destruct (dec_nat_digits k) as [Hn Hd]. destruct (dec_nat k) as [|d r]; [congruence|]. cbn [forallb] in Hd.
    apply andb_true_iff in Hd as [Hd _]. cbn [takewhile]. now rewrite Hd.
  - cbn [forallb] in H. apply andb_true_iff in H as [Hc H]. cbn [takewhile]. rewrite Hc. f_equal. now apply IH.
Qed.

Section Numbered.
  Variable stems : list str.
  Definition num (n : nat) (x : str) : Prop := In (stem_of x) stems /\ exists k, n <= k /\ x = stem_of x ++ dec_nat k.

  Lemma num_le n m x : n <= m -> num m x -> num n x.
  Proof. intros L (H & k & Hk & E). split; [exact H|]. exists k. split; [lia|exact E]. Qed.
  Lemma num_last n x : num n x -> is_digit (last_char x) = true.
  Proof. intros (_ & k & _ & E). rewrite E. apply last_digit. Qed.
  Hypothesis plain : forallb (forallb (fun c => negb (is_digit c))) stems = true.
  Lemma stem_plain stem : In stem stems -> forallb (fun c => negb (is_digit c)) stem = true.
  Proof. intros H. rewrite forallb_forall in plain. now apply plain. Qed.
  Lemma num_auto stem n k : In (s_ stem) stems -> n <= k -> num n (auto stem k).
  Proof.
    intros H Hk. unfold num, auto. rewrite stem_of_auto by now apply stem_plain. split; [exact H|]. now exists k.
  Qed.
  Lemma num_below stem n k : In (s_ stem) stems -> k < n -> ~ num n (auto stem k).
  Proof.
    intros H Hk (_ & l & Hl & E). unfold auto in E. rewrite stem_of_auto in E by now apply stem_plain.
    apply app_inv_head in E. apply dec_nat_inj in E. lia.
  Qed.
  Lemma num_other n x : ~ In (stem_of x) stems -> ~ num n x.
  Proof. intros H (H' & _). now apply H. Qed.
  Lemma num_no_digit n x : is_digit (last_char x) = false -> ~ num n x.
  Proof. intros H Hn. apply num_last in Hn. congruence. Qed.
  Lemma auto_eq stem stem' k k' : In (s_ stem) stems -> In (s_ stem') stems -> auto stem k = auto stem' k' -> s_ stem = s_ stem' /\ k = k'.
  Proof.
    intros H H' E. assert (E' := f_equal stem_of E). unfold auto in E, E'.
    rewrite !stem_of_auto in E' by now apply stem_plain. split; [exact E'|]. rewrite E' in E. apply app_inv_head in E. now apply dec_nat_inj.
  Qed.
End Numbered.

(** * What a block declares *)

Fixpoint tops (l : list code) : list (str * thing) :=
  match l with [] => [] | Declare t x :: l' => (x, t) :: tops l' | _ :: l' => tops l' end.
Lemma tops_app l m : tops (l ++ m) = tops l ++ tops m.
Proof. induction l as [|[t x|t x|t x|b] l IH]; cbn; [reflexivity|now f_equal|exact IH..]. Qed.

Definition plain_code (c : code) : Prop := exists t x, c = Mention t x \/ c = Store t x.
Lemma tops_plain l : Forall plain_code l -> tops l = [].
Proof. induction 1 as [|c l (t & x & [->| ->]) _ IH]; [reflexivity|exact IH..]. Qed.

Section Scoped.
  Variables reserved globals : list str.
  Notation meaning := (meaning globals).
  Notation scoped := (scoped reserved globals).

  Definition enter (D : list (str * thing)) (F : list (list (str * thing))) : list (list (str * thing)) :=
    match F with f :: F' => (rev D ++ f) :: F' | [] => [] end.
  Lemma scoped_app l1 : forall F l2, F <> [] -> scoped F l1 -> scoped (enter (tops l1) F) l2 -> scoped F (l1 ++ l2).
  Proof.
    induction l1 as [|[t x|t x|t x|b] l1 IH]; intros F l2 HF H1 H2; cbn [app tops] in *.
    - destruct F; [congruence|exact H2].
    - inversion H1; subst. constructor; [assumption..|]. apply IH; [discriminate|assumption|]. cbn [enter] in *. cbn [rev] in H2. now rewrite <- app_assoc in H2.
    - inversion H1; subst. constructor; [assumption|]. now apply IH.
    - inversion H1; subst. constructor; [assumption|]. now apply IH.
    - inversion H1; subst. constructor; [assumption|]. now apply IH.
  Qed.

  (** [c] mentions or stores what it is meant to *)
  Definition right (F : list (list (str * thing))) (c : code) : Prop :=
    exists t x, (c = Mention t x \/ c = Store t x) /\ meaning x F = Some t.
  Lemma right_plain F c : right F c -> plain_code c.
  Proof. intros (t & x & H & _). now exists t, x. Qed.
  Lemma scoped_right F l m : Forall (right F) l -> scoped F m -> scoped F (l ++ m).
  Proof.
    induction 1 as [|c l (t & x & [->| ->] & E) _ IH]; intros Hm; [exact Hm|..]; cbn [app]; constructor; auto.
  Qed.
  Lemma scoped_right_all F l : Forall (right F) l -> scoped F l.
  Proof. intros H. rewrite <- (app_nil_r l). apply scoped_right; [exact H|constructor]. Qed.
  Lemma scoped_cons F c m : right F c -> scoped F m -> scoped F (c :: m).
  Proof. intros H. apply (scoped_right F [c]). now constructor. Qed.

  Lemma meaning_block x F : meaning x ([] :: F) = meaning x F.
  Proof. reflexivity. Qed.
  Lemma meaning_skip x y t f F : x <> y -> meaning x (((y, t) :: f) :: F) = meaning x (f :: F).
  Proof. intros H. cbn [S_Scope.meaning]. now rewrite lookup_skip. Qed.
  Lemma meaning_here x t f F : meaning x (((x, t) :: f) :: F) = Some t.
  Proof. cbn [S_Scope.meaning]. now rewrite lookup_here. Qed.

  Lemma right_block F c : right F c -> right ([] :: F) c.
  Proof. intros H. exact H. Qed.

  Variable stems : list str.
  Notation num := (num stems).

  (** ... and is not numbered from [n] on *)
  Definition ready (n : nat) (F : list (list (str * thing))) (c : code) : Prop :=
    exists t x, (c = Mention t x \/ c = Store t x) /\ meaning x F = Some t /\ ~ num n x.
  Lemma ready_right n F l : Forall (ready n F) l -> Forall (right F) l.
  Proof. apply Forall_impl. intros c (t & x & H & E & _). now exists t, x. Qed.
  Lemma ready_block n F l : Forall (ready n F) l -> Forall (ready n ([] :: F)) l.
  Proof. apply Forall_impl. intros c H. exact H. Qed.
  Lemma ready_le n m F l : n <= m -> Forall (ready n F) l -> Forall (ready m F) l.
  Proof. intros L. apply Forall_impl. intros c (t & x & H & E & N). exists t, x. repeat split; [exact H|exact E|]. intros Hn. now apply N, (num_le _ _ m). Qed.
  Lemma ready_declare n f F l x t : num n x -> Forall (ready n (f :: F)) l -> Forall (ready n (((x, t) :: f) :: F)) l.
  Proof.
    intros Hx. apply Forall_impl. intros c (u & y & H & E & N). exists u, y. repeat split; [exact H| |exact N].
    rewrite meaning_skip; [exact E|]. intros ->. contradiction.
  Qed.
  Lemma ready_enter n D F l : Forall (fun p => num n (fst p)) D -> Forall (ready n F) l -> Forall (ready n (enter D F)) l.
  Proof.
    intros HD. revert F. induction HD as [|[x t] D Hx _ IH]; intros F Hl; [destruct F; exact Hl|].
    destruct F as [|f F]; [exact Hl|]. cbn [enter rev]. rewrite <- app_assoc. apply (IH (((x, t) :: f) :: F)). now apply ready_declare.
  Qed.
  Lemma ready_mention n F t x : meaning x F = Some t -> ~ num n x -> ready n F (Mention t x).
  Proof. intros E N. exists t, x. auto. Qed.

  (** The numbers from [n] on are free in the innermost block. *)
  Definition free (n : nat) (F : list (list (str * thing))) : Prop :=
    match F with f :: _ => forall x, num n x -> ~ In x (keys f) | [] => False end.
  Lemma free_block n F : free n ([] :: F).
  Proof. intros x _ []. Qed.
  Lemma free_le n m F : n <= m -> free n F -> free m F.
  Proof. destruct F as [|f F]; [easy|]. intros L H x Hx. apply H. now apply (num_le _ n m). Qed.
  Lemma free_declare n f F x t : ~ num n x -> free n (f :: F) -> free n (((x, t) :: f) :: F).
  Proof. intros Hx H y Hy [E|Hin]; [cbn in E; subst; contradiction|]. now apply (H y Hy). Qed.
  Lemma free_enter n D F : Forall (fun p => ~ num n (fst p)) D -> free n F -> free n (enter D F).
  Proof.
    intros HD. revert F. induction HD as [|[x t] D Hx _ IH]; intros F Hl; [destruct F; exact Hl|].
    destruct F as [|f F]; [exact Hl|]. cbn [enter rev]. rewrite <- app_assoc. apply (IH (((x, t) :: f) :: F)). now apply free_declare.
  Qed.
  Lemma free_nonempty n F : free n F -> F <> [].
  Proof. now destruct F. Qed.
End Scoped.

(** * Reading *)

Lemma reads_app_l x l m : reads x l -> reads x (l ++ m).
Proof. induction 1; cbn [app]; [apply reads_here|now apply reads_block|now apply reads_later]. Qed.
Lemma reads_app_r x l m : ~ In x (keys (tops l)) -> reads x m -> reads x (l ++ m).
Proof.
  induction l as [|[t y|t y|t y|b] l IH]; cbn [app tops]; intros H Hm; [exact Hm|..]; (apply reads_later; [|apply IH; [|exact Hm]]); try discriminate; try exact H.
  - intros u E. injection E as _ ->. apply H. now left.
  - intros Hin. apply H. now right.
Qed.
Lemma reads_in x l t : In (Mention t x) l -> ~ In x (keys (tops l)) -> reads x l.
Proof.
  intros H Ht. apply in_split in H as (a & b & ->). rewrite tops_app in Ht. apply reads_app_r; [|apply reads_here].
  intros Hin. apply Ht. unfold keys in *. rewrite map_app, in_app_iff. now left.
Qed.
Lemma all_read_app l m : all_read l -> all_read m -> all_read (l ++ m).
Proof. induction 1; intros Hm; cbn [app]; [exact Hm|constructor; auto; now apply reads_app_l|constructor; auto..]. Qed.
Lemma all_read_plain l : Forall plain_code l -> all_read l.
Proof. induction 1 as [|c l (t & x & [->| ->]) _ IH]; constructor; auto. Qed.

(** * The outermost block of a function *)

Definition frame_of (D : list (thing * str)) : list (str * thing) := rev (map (fun p => (snd p, fst p)) D).
Definition declares (D : list (thing * str)) : list code := map (fun p => Declare (fst p) (snd p)) D.
Lemma frame_keys D : keys (frame_of D) = rev (map snd D).
Proof. unfold keys, frame_of. rewrite map_rev, map_map. reflexivity. Qed.
Lemma frame_in D x : In x (keys (frame_of D)) <-> In x (map snd D).
Proof. rewrite frame_keys. symmetry. apply in_rev. Qed.

Section Frames.
  Variables reserved globals : list str.
  Lemma scoped_declares D : forall D0 F l,
    NoDup (map snd (D0 ++ D)) -> (forall p, In p D -> ~ In (snd p) reserved) ->
    scoped reserved globals (frame_of (D0 ++ D) :: F) l -> scoped reserved globals (frame_of D0 :: F) (declares D ++ l).
  Proof.
    induction D as [|[t x] D IH]; intros D0 F l Hnd Hr Hl; cbn [declares map app].
    - now rewrite app_nil_r in Hl.
    - apply scoped_declare; [exact (Hr _ (or_introl eq_refl))| |].
      + rewrite frame_in. rewrite map_app in Hnd. cbn [map snd] in Hnd. intros Hin. apply NoDup_remove_2 in Hnd. apply Hnd, in_or_app. now left.
      + specialize (IH (D0 ++ [(t, x)]) F l). rewrite <- app_assoc in IH.
        assert (E : frame_of (D0 ++ [(t, x)]) = (x, t) :: frame_of D0) by (unfold frame_of; rewrite map_app, rev_app_distr; reflexivity).
        rewrite E in IH.
        apply IH; [exact Hnd|intros p Hp; apply Hr; now right|exact Hl].
  Qed.
  Lemma frame_meaning D F t x : NoDup (map snd D) -> In (t, x) D -> meaning globals x (frame_of D :: F) = Some t.
  Proof.
    intros Hnd Hin. cbn [meaning]. rewrite (In_lookup x (frame_of D) t); [reflexivity| |].
    - rewrite frame_keys. now apply NoDup_rev.
    - unfold frame_of. apply in_rev. rewrite rev_involutive. apply in_map_iff. now exists (t, x).
  Qed.
  Lemma frame_skip D F x : ~ In x (map snd D) -> meaning globals x (frame_of D :: F) = meaning globals x F.
  Proof.
    intros H. cbn [meaning]. destruct (lookup x (frame_of D)) as [t|] eqn:E; [|reflexivity]. exfalso. apply H. apply frame_in.
    apply lookup_In in E. apply in_map_iff. now exists (x, t).
  Qed.
  Lemma frame_outer D x : ~ In x (map snd D) -> In x globals -> meaning globals x [frame_of D] = Some (Outer x).
  Proof. intros H Hg. rewrite frame_skip by exact H. cbn [meaning]. apply mem_In in Hg. now rewrite Hg. Qed.
End Frames.

(** * What is not right *)

(** A name is declared twice in a block, or means something else than it is meant to, whatever
    is known outside of the function. *)
Definition other_thing (t u : thing) : bool :=
  match t, u with
  | Own a, Own b => negb (String.eqb a b)
  | Auto a, Auto b | Outer a, Outer b => negb (str_eqb a b)
  | For a n, For b m => negb (String.eqb a b && str_eqb n m)
  | _, _ => true
  end.
Fixpoint found (x : str) (F : list (list (str * thing))) : option thing :=
  match F with [] => None | f :: F' => match lookup x f with Some t => Some t | None => found x F' end end.
Definition misunderstood (t : thing) (x : str) (F : list (list (str * thing))) : bool :=
  match found x F with Some u => other_thing t u | None => false end.
Inductive wrong (reserved : list str) : list (list (str * thing)) -> list code -> Prop :=
| wrong_keyword F t x l : In x reserved -> wrong reserved F (Declare t x :: l)
| wrong_twice f F t x l : In x (keys f) -> wrong reserved (f :: F) (Declare t x :: l)
| wrong_declare f F t x l : wrong reserved (((x, t) :: f) :: F) l -> wrong reserved (f :: F) (Declare t x :: l)
| wrong_here F t x l : misunderstood t x F = true -> wrong reserved F (Mention t x :: l)
| wrong_mention F t x l : wrong reserved F l -> wrong reserved F (Mention t x :: l)
| wrong_store F t x l : wrong reserved F l -> wrong reserved F (Store t x :: l)
| wrong_inside F b l : wrong reserved ([] :: F) b -> wrong reserved F (Block b :: l)
| wrong_block F b l : wrong reserved F l -> wrong reserved F (Block b :: l).

Lemma other_different t u : other_thing t u = true -> t <> u.
Proof.
  intros H ->. destruct u; cbn in H; rewrite ?String.eqb_refl, ?str_eqb_refl in H; discriminate.
Qed.
Lemma found_meaning globals x t F : found x F = Some t -> meaning globals x F = Some t.
Proof. induction F as [|f F IH]; cbn [found meaning]; [discriminate|]. destruct (lookup x f); auto. Qed.
Lemma wrong_not_scoped reserved globals F l : wrong reserved F l -> ~ scoped reserved globals F l.
Proof.
  induction 1; intros S; inversion S; subst; auto.
  unfold misunderstood in H. destruct (found x F) as [u|] eqn:E; [|discriminate]. apply (found_meaning globals) in E.
  apply other_different in H. congruence.
Qed.

Fixpoint find_wrong (reserved : list str) (c : code) (F : list (list (str * thing))) {struct c} : bool * list (list (str * thing)) :=
  match c with
  | Declare t x => (mem x reserved || match F with f :: _ => mem x (keys f) | [] => false end, match F with f :: F' => ((x, t) :: f) :: F' | [] => [] end)
  | Mention t x => (misunderstood t x F, F)
  | Store _ _ => (false, F)
  | Block b =>
      ((fix all (l : list code) (F : list (list (str * thing))) : bool :=
          match l with [] => false | c :: l' => let (w, F') := find_wrong reserved c F in w || all l' F' end) b ([] :: F), F)
  end.
Fixpoint is_wrong (reserved : list str) (l : list code) (F : list (list (str * thing))) : bool :=
  match l with [] => false | c :: l' => let (w, F') := find_wrong reserved c F in w || is_wrong reserved l' F' end.
Fixpoint code_size (c : code) : nat :=
  match c with Block b => S ((fix all (l : list code) : nat := match l with [] => 0 | c :: l' => code_size c + S (all l') end) b) | _ => 1 end.
Fixpoint codes_size (l : list code) : nat := match l with [] => 0 | c :: l' => code_size c + S (codes_size l') end.
Lemma is_wrong_sound reserved n : forall l F, codes_size l <= n -> F <> [] -> is_wrong reserved l F = true -> wrong reserved F l.
Proof.
  induction n as [|n IH]; intros [|c l] F Hn HF H; cbn [codes_size is_wrong] in *; try discriminate; [lia|].
  destruct c as [t x|t x|t x|b]; cbn [find_wrong code_size] in *.
  - destruct F as [|f F]; [congruence|]. apply orb_true_iff in H as [H|H].
    + apply orb_true_iff in H as [H|H]; apply mem_In in H; [now apply wrong_keyword|now apply wrong_twice].
    + apply wrong_declare. apply IH; [lia|discriminate|exact H].
  - apply orb_true_iff in H as [H|H]; [now apply wrong_here|]. apply wrong_mention. apply IH; [lia|exact HF|exact H].
  - cbn [orb] in H. apply wrong_store. apply IH; [lia|exact HF|exact H].
  - apply orb_true_iff in H as [H|H]; [|apply wrong_block; apply IH; [lia|exact HF|exact H]].
    apply wrong_inside. apply IH; [|discriminate|].
    + assert (E : (fix all (l : list code) : nat := match l with [] => 0 | c :: l' => code_size c + S (all l') end) b = codes_size b) by (clear; induction b as [|c b IHb]; [reflexivity|cbn [codes_size]; now rewrite <- IHb]).
      rewrite E in Hn. lia.
    + revert H. generalize (([] : list (str * thing)) :: F). clear. induction b as [|c b IHb]; intros F H; [discriminate|]. cbn [is_wrong].
      destruct (find_wrong reserved c F) as [w F']. apply orb_true_iff in H as [->|H]; [reflexivity|]. apply orb_true_iff. right. now apply IHb.
Qed.
Lemma not_block_right reserved f :
  is_wrong reserved (map (fun p => Declare (fst p) (snd p)) (fn_params f) ++ fn_body f) [[]] = true -> forall globals, ~ block_right reserved globals f.
Proof. intros H globals. apply wrong_not_scoped. eapply is_wrong_sound; [apply le_n|discriminate|exact H]. Qed.
