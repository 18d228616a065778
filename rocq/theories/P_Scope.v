(** Proofs about names: what the languages have in common. *)
From Coq Require Import String List Arith NArith ZArith Bool Lia.
From Verif Require Import Base M_Naming M_Schema M_Dec M_TypeGraph M_GoImports S_TypeGraph S_Scope M_Scope.
Import ListNotations.
Open Scope list_scope.
Local Open Scope nat_scope.

(** * The names which are declared *)

Fixpoint declared_in (c : code) : list str :=
  match c with
  | Declare _ x => [x]
  | Mention _ _ | Store _ _ => []
  | Block l => (fix go l := match l with [] => [] | c :: l' => declared_in c ++ go l' end) l
  end.
Definition declared (l : list code) : list str := flat_map declared_in l.

Lemma declared_block l : declared_in (Block l) = declared l.
Proof. cbn [declared_in]. unfold declared. induction l as [|c l IH]; [reflexivity|]. cbn [flat_map]. now f_equal. Qed.

Lemma assigns_declared x l : assigns x l -> In x (declared l).
Proof.
  induction 1; unfold declared; cbn [flat_map]; apply in_or_app.
  - left. now left.
  - left. now rewrite declared_block.
  - now right.
Qed.
Lemma declared_app l m : declared (l ++ m) = declared l ++ declared m.
Proof. apply flat_map_app. Qed.
Lemma declared_cons c m : declared (c :: m) = declared_in c ++ declared m.
Proof. reflexivity. Qed.
Lemma declared_flat_map {A} (f : A -> list code) l : declared (flat_map f l) = flat_map (fun a => declared (f a)) l.
Proof. induction l as [|a l IH]; [reflexivity|]. cbn [flat_map]. now rewrite declared_app, IH. Qed.
Lemma declared_autos l : declared (let_autos l) = l.
Proof. unfold let_autos. induction l as [|a l IH]; [reflexivity|]. cbn. now f_equal. Qed.
Lemma declared_mentions l : (forall c, In c l -> exists t x, c = Mention t x) -> declared l = [].
Proof.
  induction l as [|c l IH]; intros H; [reflexivity|]. rewrite declared_cons, IH by (intros d Hd; apply H; now right).
  destruct (H c (or_introl eq_refl)) as (t & x & ->). reflexivity.
Qed.
Lemma declared_outers l : declared (outers l) = [].
Proof. unfold outers. induction l as [|a l IH]; [reflexivity|]. cbn. exact IH. Qed.
Lemma declared_owns l : declared (owns l) = [].
Proof. unfold owns. induction l as [|a l IH]; [reflexivity|]. cbn. exact IH. Qed.

(** * Texts *)

Fixpoint begins (p s : str) : bool :=
  match p, s with [], _ => true | c :: p', d :: s' => N.eqb c d && begins p' s' | _ :: _, [] => false end.
Definition ends (p s : str) : bool := begins (rev p) (rev s).
Lemma begins_app p s : begins p (p ++ s) = true.
Proof. induction p as [|c p IH]; [reflexivity|]. cbn. now rewrite N.eqb_refl. Qed.
Lemma ends_app p s : ends p (s ++ p) = true.
Proof. unfold ends. rewrite rev_app_distr. apply begins_app. Qed.
Lemma begins_app_eq p s t : begins p (s ++ t) = true -> length p <= length s -> begins p s = true.
Proof.
  revert s. induction p as [|c p IH]; intros [|d s] H L; cbn in *; try reflexivity; try lia.
  apply andb_true_iff in H as [-> H]. apply IH; [exact H|lia].
Qed.
Definition last_char (s : str) : chr := last s 0%N.
Lemma last_char_app a b : b <> [] -> last_char (a ++ b) = last_char b.
Proof.
  intros Hb. unfold last_char. induction a as [|c a IH]; [reflexivity|]. cbn [app last].
  destruct (a ++ b) eqn:E; [destruct a; [now subst|discriminate]|exact IH].
Qed.
Lemma dec_nat_digits k : dec_nat k <> [] /\ forallb is_digit (dec_nat k) = true.
Proof. split; [apply dec_N_nonempty|apply dec_N_digits]. Qed.
Lemma last_digit a k : is_digit (last_char (a ++ dec_nat k)) = true.
Proof.
  destruct (dec_nat_digits k) as [Hn Hd]. rewrite last_char_app by exact Hn. unfold last_char.
  rewrite forallb_forall in Hd. apply Hd. destruct (dec_nat k) as [|c r]; [congruence|]. clear.
  revert c. induction r as [|d r IH]; intros c; [now left|]. right. apply IH.
Qed.

(** * Python *)

Section Static.
  Variables (reserved globals : list str) (owned : str -> Prop).

  (** What is known about the variables in every execution. *)
  Inductive static : list (str * thing) -> list code -> Prop :=
  | st_nil A : static A []
  | st_declare A t x l : ~ In x reserved -> static ((x, t) :: A) l -> static A (Declare t x :: l)
  | st_own A t x l : owned x -> lookup x A = Some t -> static A l -> static A (Mention t x :: l)
  | st_outer A x l : ~ owned x -> In x globals -> static A l -> static A (Mention (Outer x) x :: l)
  | st_block A B b l : (forall x t, lookup x B = Some t -> lookup x A = Some t /\ ~ In x (declared b)) ->
      static B b -> static B l -> static A (Block b :: l).

  Definition agrees (A E : list (str * thing)) : Prop := forall x t, lookup x A = Some t -> lookup x E = Some t.
  Definition after (E : list (str * thing)) (tr : list code) : list (str * thing) :=
    fold_left (fun E c => match c with Declare t x => (x, t) :: E | _ => E end) tr E.

  Lemma agrees_cons A E x t : agrees A E -> agrees ((x, t) :: A) ((x, t) :: E).
  Proof. intros H y u. cbn [lookup]. destruct (str_eqb y x); [easy|apply H]. Qed.

  Lemma right_app E tr tr' :
    names_right reserved globals owned E tr -> names_right reserved globals owned (after E tr) tr' ->
    names_right reserved globals owned E (tr ++ tr').
  Proof. induction 1; intros H'; cbn [app]; [exact H'|apply names_declare; auto|apply names_own; auto|apply names_outer; auto]. Qed.

  Lemma run_declared l tr : run l tr -> forall E x, ~ In x (declared l) -> lookup x (after E tr) = lookup x E.
  Proof.
    induction 1 as [l|t y l tr _ IH|t y l tr _ IH|t y l tr _ IH|b l tr tr' _ IH1 _ IH2|b l tr _ IH]; intros E x Hx.
    - reflexivity.
    - rewrite declared_cons in Hx. cbn [declared_in app] in Hx. cbn [after fold_left]. fold (after ((y, t) :: E) tr).
      rewrite IH by (intros Hd; apply Hx; now right). cbn [lookup].
      destruct (str_eqb x y) eqn:Exy; [|reflexivity]. apply str_eqb_eq in Exy as ->. exfalso. apply Hx. now left.
    - cbn [after fold_left]. now apply IH.
    - cbn [after fold_left]. now apply IH.
    - unfold after. rewrite fold_left_app. fold (after E tr). change (lookup x (after (after E tr) tr') = lookup x E).
      rewrite IH2 by exact Hx. apply IH1. intros Hd. apply Hx. rewrite declared_cons, declared_block. apply in_or_app. now left.
    - apply IH. intros Hd. apply Hx. rewrite declared_cons. apply in_or_app. now right.
  Qed.

  Lemma static_sound A l : static A l -> forall E tr, agrees A E -> run l tr -> names_right reserved globals owned E tr.
  Proof.
    induction 1 as [A|A t x l Hx _ IH|A t x l Ho Hl _ IH|A x l Ho Hg _ IH|A B b l HB Hb IHb Hl IHl]; intros E tr HA Hr.
    - inversion Hr; subst. constructor.
    - inversion Hr; subst; [constructor|]. constructor; [exact Hx|]. apply IH; [now apply agrees_cons|assumption].
    - inversion Hr; subst; [constructor|]. constructor; [exact Ho|now apply HA|]. now apply IH.
    - inversion Hr; subst; [constructor|]. apply names_outer; [exact Ho|exact Hg|]. now apply IH.
    - assert (HBE : agrees B E) by (intros x t Hx; now apply HA, HB). clear HA. remember (Block b :: l) as m eqn:Em. revert E HBE.
      induction Hr as [m|t y m tr _ IH|t y m tr _ IH|t y m tr _ IH|b' m tr tr' Hr1 IH1 Hr2 IH2|b' m tr Hr1 IH]; intros E HBE; try discriminate.
      + constructor.
      + injection Em as -> ->. apply right_app; [now apply IHb|]. apply IH2; [reflexivity|].
        intros x t Hx. rewrite (run_declared _ _ Hr1) by (apply (HB _ _ Hx)). now apply HBE.
      + injection Em as -> ->. now apply IHl.
  Qed.

  Lemma static_mono A l : static A l -> forall A', agrees A A' -> static A' l.
  Proof.
    induction 1 as [A|A t x l Hx _ IH|A t x l Ho Hl _ IH|A x l Ho Hg _ IH|A B b l HB Hb IHb Hl IHl]; intros A' HA.
    - constructor.
    - constructor; [exact Hx|]. apply IH. now apply agrees_cons.
    - constructor; [exact Ho|now apply HA|now apply IH].
    - apply st_outer; [exact Ho|exact Hg|now apply IH].
    - apply st_block with (B := B); [|assumption..]. intros x t Hx. destruct (HB _ _ Hx) as [H1 H2]. split; [now apply HA|exact H2].
  Qed.

  Definition mentioned_right (A : list (str * thing)) (c : code) : Prop :=
    exists t x, c = Mention t x /\ (owned x /\ lookup x A = Some t \/ t = Outer x /\ ~ owned x /\ In x globals).
  Lemma static_mentions A l m : Forall (mentioned_right A) l -> static A m -> static A (l ++ m).
  Proof.
    induction 1 as [|c l (t & x & -> & [[Ho Hl]|(-> & Ho & Hg)]) _ IH]; intros Hm; [exact Hm| |]; cbn [app].
    - apply st_own; auto.
    - apply st_outer; auto.
  Qed.
  Lemma static_new A t x l : ~ In x reserved -> lookup x A = None -> static A l -> static A (Declare t x :: l).
  Proof.
    intros Hx Hn Hl. constructor; [exact Hx|]. apply (static_mono _ _ Hl). intros y u Hy. cbn [lookup].
    destruct (str_eqb y x) eqn:E; [apply str_eqb_eq in E; congruence|exact Hy].
  Qed.
  Lemma static_autos A xs l : (forall x, In x xs -> ~ In x reserved /\ lookup x A = None) -> static A l -> static A (let_autos xs ++ l).
  Proof.
    induction xs as [|x xs IH]; intros H Hl; [exact Hl|]. cbn. destruct (H x (or_introl eq_refl)).
    apply static_new; [assumption..|]. apply IH; [|exact Hl]. intros y Hy. apply H. now right.
  Qed.
  (** A block which leaves everything which is known. *)
  Lemma static_block A b l : (forall x t, lookup x A = Some t -> ~ In x (declared b)) -> static A b -> static A l -> static A (Block b :: l).
  Proof. intros H Hb Hl. apply st_block with (B := A); [|assumption..]. intros x t Hx. split; [exact Hx|now apply (H x t)]. Qed.
End Static.

(** * References *)


Fixpoint code_size (c : code) : nat :=
  match c with
  | Block l => S ((fix go l := match l with [] => 0 | c :: l' => code_size c + go l' end) l)
  | _ => 1
  end.
Definition size (l : list code) : nat := list_sum (map code_size l).
Lemma size_block l : code_size (Block l) = S (size l).
Proof. cbn [code_size]. f_equal. unfold size. induction l as [|c l IH]; [reflexivity|]. cbn [map list_sum fold_right]. now rewrite IH. Qed.
Lemma size_cons c l : size (c :: l) = code_size c + size l.
Proof. reflexivity. Qed.
Lemma size_pos c : 0 < code_size c.
Proof. destruct c; [cbn; lia..|rewrite size_block; lia]. Qed.

Lemma declared_assigns x l : In x (declared l) -> assigns x l.
Proof.
  assert (H : forall n m, size m <= n -> In x (declared m) -> assigns x m).
  { induction n as [|n IH]; intros [|c m] Hs Hx; try (now destruct Hx).
    - exfalso. rewrite size_cons in Hs. pose proof (size_pos c). lia.
    - rewrite size_cons in Hs. pose proof (size_pos c) as Hp. rewrite declared_cons in Hx. apply in_app_or in Hx as [Hx|Hx].
      + destruct c as [t y|t y|t y|b]; [destruct Hx as [->|[]]; constructor|destruct Hx|destruct Hx|]. rewrite declared_block in Hx. rewrite size_block in Hs.
        apply assigns_block, IH; [lia|exact Hx].
      + apply assigns_later, IH; [lia|exact Hx]. }
  apply (H _ l (le_n _)).
Qed.

Lemma lookup_skip {A} x y (t : A) E : x <> y -> lookup x ((y, t) :: E) = lookup x E.
Proof. intros H. cbn [lookup]. apply str_eqb_neq in H. now rewrite H. Qed.
Lemma lookup_here {A} x (t : A) E : lookup x ((x, t) :: E) = Some t.
Proof. cbn [lookup]. now rewrite str_eqb_refl. Qed.
Lemma lookup_absent {A} x (E : list (str * A)) : ~ In x (keys E) -> lookup x E = None.
Proof.
  induction E as [|[y t] E IH]; intros H; [reflexivity|]. cbn in H. rewrite lookup_skip by (intros ->; apply H; now left).
  apply IH. intros Hx. apply H. now right.
Qed.

(** * Executions which go wrong *)

Lemma run_prefix l tr tr' : run l (tr ++ tr') -> run l tr.
Proof.
  intros H. remember (tr ++ tr') as w eqn:E. revert tr tr' E.
  induction H as [l|t x l w H IH|t x l w H IH|t x l w H IH|b l w1 w2 H1 IH1 H2 IH2|b l w H IH]; intros tr tr' E.
  - symmetry in E. apply app_eq_nil in E as [-> _]. constructor.
  - destruct tr as [|a tr]; [constructor|]. injection E as <- E. constructor. now apply (IH tr tr').
  - destruct tr as [|a tr]; [constructor|]. injection E as <- E. constructor. now apply (IH tr tr').
  - destruct tr as [|a tr]; [constructor|]. injection E as <- E. constructor. now apply (IH tr tr').
  - assert (C : (exists r, w1 = tr ++ r) \/ exists r, tr = w1 ++ r /\ w2 = r ++ tr').
    { clear -E. revert tr E. induction w1 as [|a w1 IH]; intros tr E; [right; exists tr; now split|].
      destruct tr as [|b tr]; [left; now exists (a :: w1)|]. injection E as -> E. destruct (IH _ E) as [(r & ->)|(r & -> & ->)]; [left|right]; now exists r. }
    destruct C as [(r & ->)|(r & -> & ->)].
    + rewrite <- (app_nil_r tr). apply run_enter; [now apply (IH1 tr r)|constructor].
    + apply run_enter; [exact H1|]. now apply (IH2 r tr').
  - apply run_skip. now apply (IH tr tr').
Qed.

(** Every block once *)
Fixpoint once_in (c : code) : list code :=
  match c with
  | Block l => (fix go l := match l with [] => [] | c :: l' => once_in c ++ go l' end) l
  | Store t x => [Mention t x]
  | c => [c]
  end.
Definition once_each (l : list code) : list code := flat_map once_in l.
Lemma once_block l : once_in (Block l) = once_each l.
Proof. cbn [once_in]. unfold once_each. induction l as [|c l IH]; [reflexivity|]. cbn [flat_map]. now f_equal. Qed.
Lemma run_once l : run l (once_each l).
Proof.
  assert (H : forall n m, size m <= n -> run m (once_each m)).
  { induction n as [|n IH]; intros [|c m] Hs; try constructor.
    - exfalso. rewrite size_cons in Hs. pose proof (size_pos c). lia.
    - rewrite size_cons in Hs. pose proof (size_pos c) as Hp. change (once_each (c :: m)) with (once_in c ++ once_each m).
      destruct c as [t x|t x|t x|b]; [constructor; apply IH; lia..|]. rewrite size_block in Hs. rewrite once_block.
      apply run_enter; [apply IH; lia|]. apply run_skip, IH. lia. }
  apply (H _ l (le_n _)).
Qed.

Lemma mention_own reserved globals own E tr t x : names_right reserved globals own E (tr ++ [Mention t x]) -> own x -> lookup x (after E tr) = Some t.
Proof.
  revert E. induction tr as [|a tr IH]; intros E H Hx; cbn [app] in H.
  - inversion H; subst; [assumption|contradiction].
  - inversion H; subst; cbn [after fold_left]; [now apply IH|now apply IH|now apply IH].
Qed.

(** In the execution which enters every block once, the name does not mean what it is meant
    to after the first [k] steps. *)
Lemma not_right reserved globals f k t x :
  (exists rest, once_each (fn_body f) = firstn k (once_each (fn_body f)) ++ Mention t x :: rest) ->
  (In x (map snd (fn_params f)) \/ In x (declared (fn_body f))) ->
  lookup x (after (map (fun p => (snd p, fst p)) (fn_params f)) (firstn k (once_each (fn_body f)))) <> Some t ->
  ~ python_right reserved globals f.
Proof.
  intros (rest & E) Ho Hn (_ & _ & H). apply Hn. eapply mention_own.
  - apply H. apply (run_prefix _ _ rest). rewrite <- app_assoc. cbn [app]. rewrite <- E. apply run_once.
  - destruct Ho as [Ho|Ho]; [now left|right; now apply declared_assigns].
Qed.
