(** Strings, dictionaries and small helpers shared by all model files.

    Python [str] is a list of code points ([list N]); dictionaries are ordered
    association lists.  Nothing in this file models a function of /repo; it
    models the Python built-ins that the functions of /repo call. *)
From Coq Require Import String Ascii List NArith ZArith Bool Lia.
Import ListNotations.
Open Scope bool_scope.

Notation chr := N (only parsing).
Notation str := (list N) (only parsing).

(** Literals: ASCII Coq strings as code points. *)
Definition s_ (x : string) : str := map N_of_ascii (list_ascii_of_string x).

Fixpoint str_eqb (a b : str) : bool :=
  match a, b with
  | [], [] => true
  | x :: a', y :: b' => N.eqb x y && str_eqb a' b'
  | _, _ => false
  end.

Lemma str_eqb_eq a b : str_eqb a b = true <-> a = b.
Proof.
  revert b; induction a as [|x a IH]; intros [|y b]; simpl; split; intro H;
    try discriminate; try reflexivity.
  - apply andb_true_iff in H as [H1 H2].
    apply N.eqb_eq in H1. apply IH in H2. subst. reflexivity.
  - injection H as -> ->. rewrite N.eqb_refl. simpl. apply IH. reflexivity.
Qed.

Lemma str_eqb_refl a : str_eqb a a = true.
Proof. apply str_eqb_eq. reflexivity. Qed.

Lemma str_eqb_neq a b : str_eqb a b = false <-> a <> b.
Proof.
  split.
  - intros H E. subst. rewrite str_eqb_refl in H. discriminate.
  - intros H. destruct (str_eqb a b) eqn:E; [|reflexivity].
    apply str_eqb_eq in E. contradiction.
Qed.

Lemma str_eqb_sym a b : str_eqb a b = str_eqb b a.
Proof.
  destruct (str_eqb a b) eqn:E.
  - apply str_eqb_eq in E. subst. symmetry. apply str_eqb_refl.
  - apply str_eqb_neq in E. symmetry. apply str_eqb_neq. congruence.
Qed.

Definition str_eq_dec (a b : str) : {a = b} + {a <> b} := list_eq_dec N.eq_dec a b.

(** [x in xs] for a list of strings. *)
Definition mem (x : str) (xs : list str) : bool := existsb (str_eqb x) xs.

Lemma mem_In x xs : mem x xs = true <-> In x xs.
Proof.
  unfold mem. rewrite existsb_exists. split.
  - intros [y [H1 H2]]. apply str_eqb_eq in H2. subst. exact H1.
  - intros H. exists x. split; [exact H|apply str_eqb_refl].
Qed.

Lemma mem_not_In x xs : mem x xs = false <-> ~ In x xs.
Proof.
  rewrite <- mem_In. destruct (mem x xs); split; congruence.
Qed.

(** Dictionaries: [d.get(k)], the first binding counts. *)
Fixpoint lookup {A} (k : str) (d : list (str * A)) : option A :=
  match d with
  | [] => None
  | (k', v) :: d' => if str_eqb k k' then Some v else lookup k d'
  end.

(** [d[k] = v]: keeps the position of an existing key (Python dict). *)
Fixpoint upsert {A} (k : str) (v : A) (d : list (str * A)) : list (str * A) :=
  match d with
  | [] => [(k, v)]
  | (k', v') :: d' => if str_eqb k k' then (k, v) :: d' else (k', v') :: upsert k v d'
  end.

Definition keys {A} (d : list (str * A)) : list str := map fst d.

Lemma lookup_In {A} k (d : list (str * A)) v : lookup k d = Some v -> In (k, v) d.
Proof.
  induction d as [|[k' v'] d IH]; simpl; [discriminate|].
  destruct (str_eqb k k') eqn:E.
  - intros [= ->]. apply str_eqb_eq in E. subst. left. reflexivity.
  - intros H. right. apply IH. exact H.
Qed.

Lemma lookup_None {A} k (d : list (str * A)) : lookup k d = None <-> ~ In k (keys d).
Proof.
  induction d as [|[k' v'] d IH]; simpl; [tauto|].
  destruct (str_eqb k k') eqn:E.
  - apply str_eqb_eq in E. subst. split; [discriminate|tauto].
  - apply str_eqb_neq in E. rewrite IH. split; intros H; [intros [H1|H1]; congruence|tauto].
Qed.

Lemma lookup_Some_key {A} k (d : list (str * A)) v : lookup k d = Some v -> In k (keys d).
Proof.
  intros H. destruct (in_dec str_eq_dec k (keys d)) as [i|i]; [exact i|].
  apply lookup_None in i. congruence.
Qed.

Lemma In_lookup {A} k (d : list (str * A)) v :
  NoDup (keys d) -> In (k, v) d -> lookup k d = Some v.
Proof.
  induction d as [|[k' v'] d IH]; simpl; [tauto|].
  intros HN HI. inversion HN as [|? ? H1 H2]; subst.
  destruct (str_eqb k k') eqn:E.
  - apply str_eqb_eq in E. subst. destruct HI as [HI|HI]; [congruence|].
    exfalso. apply H1. change k' with (fst (k', v)). apply in_map. exact HI.
  - apply str_eqb_neq in E. destruct HI as [HI|HI]; [congruence|]. apply IH; assumption.
Qed.

Lemma lookup_key_Some {A} k (d : list (str * A)) : In k (keys d) -> exists v, lookup k d = Some v.
Proof.
  intros H. destruct (lookup k d) as [v|] eqn:E; [eauto|].
  apply lookup_None in E. contradiction.
Qed.

Lemma lookup_upsert_eq {A} k (v : A) d : lookup k (upsert k v d) = Some v.
Proof.
  induction d as [|[k' v'] d IH]; simpl.
  - rewrite str_eqb_refl. reflexivity.
  - destruct (str_eqb k k') eqn:E; simpl; [rewrite str_eqb_refl; reflexivity|].
    rewrite E. exact IH.
Qed.

Lemma lookup_upsert_neq {A} k k' (v : A) d :
  k <> k' -> lookup k' (upsert k v d) = lookup k' d.
Proof.
  intros Hk. induction d as [|[k2 v2] d IH]; simpl.
  - destruct (str_eqb k' k) eqn:E; [apply str_eqb_eq in E; congruence|reflexivity].
  - destruct (str_eqb k k2) eqn:E; simpl.
    + apply str_eqb_eq in E. subst k2.
      destruct (str_eqb k' k) eqn:E2; [apply str_eqb_eq in E2; congruence|reflexivity].
    + rewrite IH. reflexivity.
Qed.

Lemma upsert_fresh {A} k (v : A) d : ~ In k (keys d) -> upsert k v d = d ++ [(k, v)].
Proof.
  induction d as [|[k' v'] d IH]; simpl; [reflexivity|].
  intros H. destruct (str_eqb k k') eqn:E.
  - apply str_eqb_eq in E. subst. tauto.
  - rewrite IH; tauto.
Qed.

Lemma keys_upsert_In {A} k k' (v : A) d :
  In k' (keys (upsert k v d)) <-> k' = k \/ In k' (keys d).
Proof.
  induction d as [|[k2 v2] d IH]; simpl; [intuition congruence|].
  destruct (str_eqb k k2) eqn:E; simpl.
  - apply str_eqb_eq in E. subst. intuition congruence.
  - rewrite IH. intuition congruence.
Qed.

Lemma NoDup_keys_upsert {A} k (v : A) d : NoDup (keys d) -> NoDup (keys (upsert k v d)).
Proof.
  induction d as [|[k2 v2] d IH]; simpl; intros H.
  - constructor; [intros []|constructor].
  - inversion H as [|? ? H1 H2]; subst.
    destruct (str_eqb k k2) eqn:E; simpl.
    + apply str_eqb_eq in E. subst. constructor; assumption.
    + constructor; [|apply IH; assumption].
      intros HI. apply str_eqb_neq in E. fold (@keys A) in *.
      change (map fst (upsert k v d)) with (keys (upsert k v d)) in HI.
      apply keys_upsert_In in HI as [HI|HI]; [congruence|]. apply H1. exact HI.
Qed.

(** Character classes (ASCII). *)
Definition c_ (a : ascii) : chr := N_of_ascii a.
Definition is_lower (c : chr) : bool := ((97 <=? c) && (c <=? 122))%N.
Definition is_upper (c : chr) : bool := ((65 <=? c) && (c <=? 90))%N.
Definition is_digit (c : chr) : bool := ((48 <=? c) && (c <=? 57))%N.
Definition is_alpha (c : chr) : bool := is_lower c || is_upper c.
Definition is_alnum (c : chr) : bool := is_alpha c || is_digit c.
Definition is_word (c : chr) : bool := is_alnum c || N.eqb c 95.

(** [str.lower] / [str.upper], ASCII only (simplification: the names it is
    applied to are ASCII after validation, except for the unanchored tail of
    graph and embed names). *)
Definition lower_c (c : chr) : chr := if is_upper c then (c + 32)%N else c.
Definition upper_c (c : chr) : chr := if is_lower c then (c - 32)%N else c.
Definition lower (s : str) : str := map lower_c s.
Definition upper (s : str) : str := map upper_c s.

(** [sep.join(parts)] *)
Fixpoint join (sep : str) (parts : list str) : str :=
  match parts with
  | [] => []
  | [p] => p
  | p :: ps => p ++ sep ++ join sep ps
  end.

(** [s.split(c)] for a one-character separator: never empty. *)
Fixpoint split_on (c : chr) (s : str) : list str :=
  match s with
  | [] => [[]]
  | x :: s' =>
      if N.eqb x c then [] :: split_on c s'
      else match split_on c s' with
           | [] => [[x]]
           | p :: ps => (x :: p) :: ps
           end
  end.

Lemma split_on_cons c s : exists p ps, split_on c s = p :: ps.
Proof.
  induction s as [|x s IH]; simpl; [eauto|].
  destruct (N.eqb x c); [eauto|].
  destruct IH as [p [ps ->]]. eauto.
Qed.

Lemma split_on_join c s : join [c] (split_on c s) = s.
Proof.
  induction s as [|x s IH]; simpl; [reflexivity|].
  destruct (split_on_cons c s) as [p [ps E]].
  destruct (N.eqb x c) eqn:Ex.
  - apply N.eqb_eq in Ex. subst. rewrite E in *.
    transitivity (c :: join [c] (p :: ps)); [reflexivity|]. rewrite IH. reflexivity.
  - rewrite E in *. rewrite <- IH. simpl. destruct ps; reflexivity.
Qed.

Lemma split_on_no_sep c s p : In p (split_on c s) -> ~ In c p.
Proof.
  revert p; induction s as [|x s IH]; simpl; intros p.
  - intros [<-|[]] [].
  - destruct (N.eqb x c) eqn:Ex.
    + intros [<-|H]; [intros []|]. apply IH. exact H.
    + destruct (split_on_cons c s) as [q [qs E]]. rewrite E in *.
      apply N.eqb_neq in Ex.
      intros [<-|H].
      * intros [H|H]; [congruence|]. apply (IH q); [left; reflexivity|exact H].
      * apply IH. right. exact H.
Qed.

Lemma split_on_id c s : ~ In c s -> split_on c s = [s].
Proof.
  induction s as [|x s IH]; simpl; [reflexivity|].
  intros H. destruct (N.eqb x c) eqn:Ex; [apply N.eqb_eq in Ex; tauto|].
  rewrite IH; tauto.
Qed.

(** [s.startswith(p)], [s.endswith(p)]. *)
Fixpoint starts_with (p s : str) : bool :=
  match p, s with
  | [], _ => true
  | x :: p', y :: s' => N.eqb x y && starts_with p' s'
  | _ :: _, [] => false
  end.
Definition ends_with (p s : str) : bool := starts_with (rev p) (rev s).

Lemma starts_with_app p s : starts_with p s = true <-> exists r, s = p ++ r.
Proof.
  revert s; induction p as [|x p IH]; intros s; simpl.
  - split; [eauto|reflexivity].
  - destruct s as [|y s].
    + split; [discriminate|intros [r H]; discriminate].
    + rewrite andb_true_iff, N.eqb_eq, IH. split.
      * intros [-> [r ->]]. eauto.
      * intros [r [= -> ->]]. eauto.
Qed.

Lemma ends_with_app p s : ends_with p s = true <-> exists r, s = r ++ p.
Proof.
  unfold ends_with. rewrite starts_with_app. split; intros [r H].
  - exists (rev r). rewrite <- (rev_involutive s), H, rev_app_distr, rev_involutive. reflexivity.
  - exists (rev r). rewrite H, rev_app_distr. reflexivity.
Qed.

(** [str.splitlines] boundaries: LF, VT, FF, CR, FS, GS, RS, NEL, LS, PS. *)
Definition is_linebreak (c : chr) : bool :=
  existsb (N.eqb c) [10;11;12;13;28;29;30;133;8232;8233]%N.

(** [s.splitlines()] and [s.splitlines(keepends=True)]: one worker returning
    (line, terminator) pairs; [acc] is the current line reversed. *)
Fixpoint lines_go (acc : str) (s : str) : list (str * str) :=
  match s with
  | [] => match acc with [] => [] | _ => [(rev acc, [])] end
  | c :: s' =>
      if N.eqb c 13 then
        match s' with
        | d :: s'' =>
            if N.eqb d 10 then (rev acc, [13; 10]%N) :: lines_go [] s''
            else (rev acc, [c]) :: lines_go [] s'
        | [] => (rev acc, [c]) :: lines_go [] s'
        end
      else if is_linebreak c then (rev acc, [c]) :: lines_go [] s'
      else lines_go (c :: acc) s'
  end.
Definition lines_ends (s : str) : list (str * str) := lines_go [] s.
Definition splitlines (s : str) : list str := map fst (lines_ends s).
Definition splitlines_keep (s : str) : list str := map (fun p => fst p ++ snd p) (lines_ends s).

(** Induction two characters at a time (for CR LF). *)
Lemma str_ind2 (P : str -> Prop) :
  P [] -> (forall c, P [c]) ->
  (forall c d s, P s -> P (d :: s) -> P (c :: d :: s)) -> forall s, P s.
Proof.
  intros H0 H1 H2.
  assert (H : forall s, P s /\ forall c, P (c :: s)).
  { induction s as [|d s [IH1 IH2]]; split; auto. }
  intros s. apply H.
Qed.

Lemma lines_go_keep s : forall acc,
  concat (map (fun p => fst p ++ snd p) (lines_go acc s)) = rev acc ++ s.
Proof.
  induction s as [|c|c d s IH1 IH2] using str_ind2; intros acc.
  - simpl. destruct acc; simpl; rewrite ?app_nil_r; reflexivity.
  - cbn -[is_linebreak]. destruct (N.eqb c 13) eqn:E; [|destruct (is_linebreak c)];
      simpl; rewrite ?app_nil_r; try reflexivity.
  - change (lines_go acc (c :: d :: s)) with
      (if N.eqb c 13 then
        (if N.eqb d 10 then (rev acc, [13; 10]%N) :: lines_go [] s
         else (rev acc, [c]) :: lines_go [] (d :: s))
      else if is_linebreak c then (rev acc, [c]) :: lines_go [] (d :: s)
      else lines_go (c :: acc) (d :: s)).
    destruct (N.eqb c 13) eqn:E.
    + apply N.eqb_eq in E. subst c.
      destruct (N.eqb d 10) eqn:Ed.
      * apply N.eqb_eq in Ed. subst d. simpl. rewrite IH1. simpl. rewrite <- app_assoc. reflexivity.
      * cbn [map concat fst snd]. rewrite IH2. simpl. rewrite <- app_assoc. reflexivity.
    + destruct (is_linebreak c).
      * cbn [map concat fst snd]. rewrite IH2. simpl. rewrite <- app_assoc. reflexivity.
      * rewrite IH2. simpl. rewrite <- app_assoc. reflexivity.
Qed.

Lemma splitlines_keep_concat s : concat (splitlines_keep s) = s.
Proof. unfold splitlines_keep, lines_ends. rewrite lines_go_keep. reflexivity. Qed.

Lemma lines_go_no_break s : forall acc,
  (forall c, In c acc -> is_linebreak c = false) ->
  forall l t, In (l, t) (lines_go acc s) -> forall c, In c l -> is_linebreak c = false.
Proof.
  induction s as [|c|c d s IH1 IH2] using str_ind2; intros acc Ha l t HI x Hx.
  - simpl in HI. destruct acc; [destruct HI|]. destruct HI as [HI|[]]. injection HI as <- <-.
    apply Ha. apply in_rev. exact Hx.
  - cbn -[is_linebreak] in HI.
    destruct (N.eqb c 13) eqn:E; [|destruct (is_linebreak c) eqn:B].
    + destruct HI as [HI|[]]. injection HI as <- <-. apply Ha, in_rev, Hx.
    + destruct HI as [HI|[]]. injection HI as <- <-. apply Ha, in_rev, Hx.
    + destruct HI as [HI|[]]. injection HI as <- <-.
      apply in_app_iff in Hx as [Hx|[<-|[]]]; [apply Ha, in_rev, Hx|exact B].
  - change (lines_go acc (c :: d :: s)) with
      (if N.eqb c 13 then
        (if N.eqb d 10 then (rev acc, [13; 10]%N) :: lines_go [] s
         else (rev acc, [c]) :: lines_go [] (d :: s))
      else if is_linebreak c then (rev acc, [c]) :: lines_go [] (d :: s)
      else lines_go (c :: acc) (d :: s)) in HI.
    destruct (N.eqb c 13) eqn:E; [|destruct (is_linebreak c) eqn:B].
    + assert (HI' : In (l, t) ((rev acc, [13; 10]%N) :: lines_go [] s) \/
                    In (l, t) ((rev acc, [c]) :: lines_go [] (d :: s))).
      { destruct (N.eqb d 10); [left|right]; exact HI. }
      destruct HI' as [[HI'|HI']|[HI'|HI']].
      * injection HI' as <- <-. apply Ha, in_rev, Hx.
      * eapply (IH1 []); [intros ? []|exact HI'|exact Hx].
      * injection HI' as <- <-. apply Ha, in_rev, Hx.
      * eapply (IH2 []); [intros ? []|exact HI'|exact Hx].
    + destruct HI as [HI|HI].
      * injection HI as <- <-. apply Ha, in_rev, Hx.
      * eapply (IH2 []); [intros ? []|exact HI|exact Hx].
    + eapply (IH2 (c :: acc)); [|exact HI|exact Hx].
      intros y [<-|Hy]; [exact B|apply Ha, Hy].
Qed.

Lemma splitlines_no_break s l c : In l (splitlines s) -> In c l -> is_linebreak c = false.
Proof.
  unfold splitlines, lines_ends. rewrite in_map_iff. intros [[l' t] [<- HI]] Hc.
  eapply (lines_go_no_break s []); [intros ? []|exact HI|exact Hc].
Qed.

Lemma lines_go_term s : forall acc l t,
  In (l, t) (lines_go acc s) ->
  t = [] \/ t = [13; 10]%N \/ exists c, t = [c] /\ is_linebreak c = true.
Proof.
  induction s as [|c|c d s IH1 IH2] using str_ind2; intros acc l t HI.
  - simpl in HI. destruct acc; [destruct HI|]. destruct HI as [HI|[]]. injection HI as <- <-. auto.
  - cbn -[is_linebreak] in HI.
    destruct (N.eqb c 13) eqn:E; [|destruct (is_linebreak c) eqn:B];
      destruct HI as [HI|[]]; injection HI as <- <-; eauto.
    apply N.eqb_eq in E. subst. right. right. eexists. split; reflexivity.
  - change (lines_go acc (c :: d :: s)) with
      (if N.eqb c 13 then
        (if N.eqb d 10 then (rev acc, [13; 10]%N) :: lines_go [] s
         else (rev acc, [c]) :: lines_go [] (d :: s))
      else if is_linebreak c then (rev acc, [c]) :: lines_go [] (d :: s)
      else lines_go (c :: acc) (d :: s)) in HI.
    destruct (N.eqb c 13) eqn:E; [|destruct (is_linebreak c) eqn:B].
    + assert (HI' : In (l, t) ((rev acc, [13; 10]%N) :: lines_go [] s) \/
                    In (l, t) ((rev acc, [c]) :: lines_go [] (d :: s))).
      { destruct (N.eqb d 10); [left|right]; exact HI. }
      apply N.eqb_eq in E. subst c.
      destruct HI' as [[HI'|HI']|[HI'|HI']]; eauto; injection HI' as <- <-; eauto.
    + destruct HI as [HI|HI]; eauto. injection HI as <- <-. eauto.
    + eauto.
Qed.

(** Every list of characters without a line break is its own single line. *)
Lemma lines_go_id s : forall acc,
  (forall c, In c s -> is_linebreak c = false) -> acc ++ s <> [] ->
  lines_go acc s = [(rev acc ++ s, [])].
Proof.
  induction s as [|c s IH]; intros acc H Hne.
  - simpl. rewrite !app_nil_r in *. destruct acc; [congruence|reflexivity].
  - assert (B : is_linebreak c = false) by (apply H; left; reflexivity).
    cbn [lines_go].
    destruct (N.eqb c 13) eqn:E; [apply N.eqb_eq in E; subst; discriminate|].
    rewrite B. rewrite IH.
    + simpl. rewrite <- app_assoc. reflexivity.
    + intros x Hx. apply H. right. exact Hx.
    + discriminate.
Qed.

Lemma splitlines_id s :
  (forall c, In c s -> is_linebreak c = false) -> s <> [] -> splitlines s = [s].
Proof.
  intros H Hne. unfold splitlines, lines_ends. rewrite lines_go_id; auto.
Qed.
