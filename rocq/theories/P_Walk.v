(** Proofs about the iteration over types and the enumeration of patterns. *)
From Verif Require Import Base M_Naming M_Schema M_Dec M_Walk S_Walk P_AutoID.
From Coq Require Import String List Arith NArith ZArith Bool Lia Permutation.
Import ListNotations.
Open Scope list_scope.

(** * Iteration *)
Lemma iterate_type_spec t : forall ref u r,
  In (u, r) (iterate_type t ref) <-> exists n, inside t n u /\ r = ref ++ levels n.
Proof.
  induction t; intros ref u r; cbn [iterate_type In].
  all: try (split; [intros [E|[]]; injection E as <- <-; exists 0; split; [constructor|now rewrite app_nil_r]
                   |intros (n & H & ->); inversion H; subst; left; cbn [levels]; now rewrite app_nil_r]).
  - rewrite IHt. split.
    + intros [E|(n & H & ->)].
      * injection E as <- <-. exists 0. split; [constructor|now rewrite app_nil_r].
      * exists (S n). split; [now constructor|]. cbn [levels]. now rewrite <- app_assoc.
    + intros (n & H & ->). inversion H; subst.
      * left. cbn [levels]. now rewrite app_nil_r.
      * right. eexists. split; [eassumption|]. cbn [levels]. now rewrite <- app_assoc.
  - rewrite IHt. split.
    + intros [E|(n & H & ->)].
      * injection E as <- <-. exists 0. split; [constructor|now rewrite app_nil_r].
      * exists (S n). split; [now constructor|]. cbn [levels]. now rewrite <- app_assoc.
    + intros (n & H & ->). inversion H; subst.
      * left. cbn [levels]. now rewrite app_nil_r.
      * right. eexists. split; [eassumption|]. cbn [levels]. now rewrite <- app_assoc.
Qed.

Lemma iterate_composite_spec cr ps t r :
  In (t, r) (iterate_composite cr ps) <->
  exists p n, In p ps /\ inside (p_type p) n t /\ r = cr ++ s_ "/" ++ p_name p ++ levels n.
Proof.
  unfold iterate_composite. rewrite in_flat_map. split.
  - intros (p & Hp & H). apply iterate_type_spec in H as (n & Hi & ->). exists p, n.
    split; [exact Hp|]. split; [exact Hi|]. now rewrite <- !app_assoc.
  - intros (p & n & Hp & Hi & ->). exists p. split; [exact Hp|]. apply iterate_type_spec. exists n.
    split; [exact Hi|]. now rewrite <- !app_assoc.
Qed.

Lemma iterate_spec g t r : In (t, r) (iterate_over_types g) <-> value_type g t r.
Proof.
  unfold iterate_over_types. rewrite !in_app_iff, !in_flat_map. split.
  - intros [(c & Hc & H)|[(e & He & H)|H]]; apply iterate_composite_spec in H as (p & n & Hp & Hi & ->).
    + econstructor; [apply (composite_class g c Hc)|exact Hp|exact Hi|reflexivity].
    + econstructor; [apply (composite_embed g e He)|exact Hp|exact Hi|reflexivity].
    + econstructor; [apply composite_graph|exact Hp|exact Hi|reflexivity].
  - intros [cr ps p n Hc Hp Hi Hr]. inversion Hc; subst.
    + left. exists c. split; [assumption|]. apply iterate_composite_spec. exists p, n. auto.
    + right. left. exists e. split; [assumption|]. apply iterate_composite_spec. exists p, n. auto.
    + right. right. apply iterate_composite_spec. exists p, n. auto.
Qed.

(** ** Distinct references *)
Definition no_slash (s : str) : Prop := ~ In 47%N s.

(** A text up to the first slash. *)
Lemma slash_first a b c d : no_slash a -> no_slash b -> a ++ 47%N :: c = b ++ 47%N :: d -> a = b /\ c = d.
Proof.
  revert b. induction a as [|x a IH]; intros b Ha Hb H.
  - destruct b as [|y b]; [injection H as ->; auto|]. injection H as <- _. exfalso. apply Hb. now left.
  - destruct b as [|y b].
    + injection H as -> _. exfalso. apply Ha. now left.
    + injection H as <- H. destruct (IH b) as [-> ->]; [| |exact H|auto].
      * intros Hi. apply Ha. now right.
      * intros Hi. apply Hb. now right.
Qed.

Lemma slash_end a b c : no_slash a -> a = b ++ 47%N :: c -> False.
Proof. intros Ha ->. apply Ha. apply in_or_app. right. now left. Qed.

Lemma levels_slash n : levels n = [] \/ exists r, levels n = 47%N :: r.
Proof. destruct n; [now left|]. right. eexists. reflexivity. Qed.

Lemma levels_inj n m : levels n = levels m -> n = m.
Proof.
  revert m. induction n as [|n IH]; intros [|m] H; try discriminate H; [reflexivity|].
  cbn [levels] in H. apply app_inv_head in H. f_equal. now apply IH.
Qed.

(** A name followed by levels. *)
Lemma name_levels a b n m : no_slash a -> no_slash b -> a ++ levels n = b ++ levels m -> a = b /\ n = m.
Proof.
  intros Ha Hb H. destruct n as [|n], m as [|m].
  - cbn [levels] in H. rewrite !app_nil_r in H. auto.
  - cbn [levels] in H. rewrite app_nil_r in H. exfalso. eapply slash_end; [exact Ha|exact H].
  - cbn [levels] in H. rewrite app_nil_r in H. exfalso. symmetry in H. eapply slash_end; [exact Hb|exact H].
  - cbn [levels] in H.
    change (s_ "/values" ++ levels n) with (47%N :: s_ "values" ++ levels n) in H.
    change (s_ "/values" ++ levels m) with (47%N :: s_ "values" ++ levels m) in H.
    apply slash_first in H as [-> H]; [|assumption|assumption]. split; [reflexivity|].
    apply app_inv_head in H. apply levels_inj in H. now rewrite H.
Qed.

Lemma digits_no_slash n : no_slash (dec_nat n).
Proof.
  intros H. pose proof (dec_N_digits (N.of_nat n)) as Hd. rewrite forallb_forall in Hd.
  specialize (Hd _ H). discriminate Hd.
Qed.

Lemma dec_not_values n c : dec_nat n ++ c = s_ "values" ++ c -> False.
Proof.
  intros H. apply app_inv_tail in H. pose proof (dec_N_digits (N.of_nat n)) as Hd. fold (dec_nat n) in Hd.
  rewrite H in Hd. discriminate Hd.
Qed.

Lemma levels_no_digit i n r : levels n = 47%N :: dec_nat i ++ 47%N :: r -> False.
Proof.
  destruct n as [|n]; [discriminate|]. cbn [levels]. intros H. injection H as H.
  pose proof (dec_N_digits (N.of_nat i)) as Hd. pose proof (dec_N_nonempty (N.of_nat i)) as Hn.
  fold (dec_nat i) in Hd, Hn. destruct (dec_nat i) as [|c l]; [congruence|].
  cbn [app] in H. injection H as H _. subst c. discriminate Hd.
Qed.

(** The part of a reference after that of the graph. *)
Definition class_part (kind : str) (i : nat) (name : str) (n : nat) : str :=
  kind ++ dec_nat i ++ 47%N :: name ++ levels n.
Definition graph_part (name : str) (n : nat) : str := 47%N :: name ++ levels n.

Lemma class_part_inj kind i a n j b m :
  no_slash a -> no_slash b -> class_part kind i a n = class_part kind j b m -> i = j /\ a = b /\ n = m.
Proof.
  intros Ha Hb H. unfold class_part in H. apply app_inv_head in H.
  apply slash_first in H as [Hi H]; [|apply digits_no_slash|apply digits_no_slash].
  apply dec_nat_inj in Hi. apply name_levels in H; [|assumption|assumption]. tauto.
Qed.

Lemma class_embed_part i a n j b m :
  class_part (s_ "/classes/") i a n = class_part (s_ "/embeds/") j b m -> False.
Proof. unfold class_part. intros H. discriminate H. Qed.

Lemma graph_class_part k i a n b m :
  no_slash k -> no_slash b -> graph_part b m = class_part (47%N :: k ++ [47%N]) i a n -> False.
Proof.
  intros Hk Hb H. unfold graph_part, class_part in H. cbn [app] in H. injection H as H.
  rewrite <- app_assoc in H. cbn [app] in H. destruct m as [|m].
  - cbn [levels] in H. rewrite app_nil_r in H. now apply slash_end in H.
  - assert (E : b ++ levels (S m) = b ++ 47%N :: (s_ "values" ++ levels m)) by reflexivity.
    rewrite E in H. apply slash_first in H as [-> H]; [|assumption|assumption].
    apply (levels_no_digit i (S m) (a ++ levels n)).
    change (levels (S m)) with (47%N :: s_ "values" ++ levels m). now rewrite H.
Qed.

Lemma NoDup_flat_map {A B} (f : A -> list B) l :
  NoDup l -> (forall x, In x l -> NoDup (f x)) ->
  (forall x y z, In x l -> In y l -> In z (f x) -> In z (f y) -> x = y) ->
  NoDup (flat_map f l).
Proof.
  intros Hl Hf Hd. induction Hl as [|x l Hx Hl IH]; [constructor|].
  cbn [flat_map]. apply NoDup_app_disjoint.
  - apply Hf. now left.
  - apply IH; [intros y Hy; apply Hf; now right|]. intros y y' z Hy Hy'. apply Hd; now right.
  - intros z Hz Hz'. apply in_flat_map in Hz' as (y & Hy & Hz').
    assert (x = y) by (apply (Hd x y z); [now left|now right|assumption|assumption]). now subst.
Qed.

Lemma iterate_type_refs t : forall ref, NoDup (map snd (iterate_type t ref)).
Proof.
  induction t; intros ref; cbn [iterate_type map snd]; try (constructor; [easy|constructor]).
  - constructor; [|apply IHt]. intros H. apply in_map_iff in H as ([u r] & E & H). cbn [snd] in E. subst r.
    apply iterate_type_spec in H as (n & _ & E). apply (f_equal (@length _)) in E. rewrite !app_length in E.
    cbn [s_ length] in E. cbn in E. lia.
  - constructor; [|apply IHt]. intros H. apply in_map_iff in H as ([u r] & E & H). cbn [snd] in E. subst r.
    apply iterate_type_spec in H as (n & _ & E). apply (f_equal (@length _)) in E. rewrite !app_length in E.
    cbn in E. lia.
Qed.

Lemma map_flat_map {A B C} (f : B -> C) (h : A -> list B) l : map f (flat_map h l) = flat_map (fun x => map f (h x)) l.
Proof. induction l as [|x l IH]; [reflexivity|]. cbn [flat_map]. now rewrite map_app, IH. Qed.

Lemma NoDup_of_map {A B} (f : A -> B) l : NoDup (map f l) -> NoDup l.
Proof.
  induction l as [|x l IH]; intros H; [constructor|]. inversion H; subst. constructor; [|auto].
  intros Hx. apply H2. now apply in_map.
Qed.

Lemma NoDup_map_In {A B} (f : A -> B) l x y : NoDup (map f l) -> In x l -> In y l -> f x = f y -> x = y.
Proof.
  induction l as [|z l IH]; intros Hn Hx Hy E; [easy|]. cbn [map] in Hn. inversion Hn; subst.
  destruct Hx as [->|Hx], Hy as [->|Hy]; [reflexivity| | |auto].
  - exfalso. apply H1. rewrite E. now apply in_map.
  - exfalso. apply H1. rewrite <- E. now apply in_map.
Qed.

Lemma iterate_composite_refs cr ps :
  NoDup (map p_name ps) -> (forall p, In p ps -> no_slash (p_name p)) ->
  NoDup (map snd (iterate_composite cr ps)).
Proof.
  intros Hn Hs. unfold iterate_composite. rewrite map_flat_map.
  apply NoDup_flat_map; [now apply NoDup_of_map with (f := p_name)|intros p _; apply iterate_type_refs|].
  intros p q z Hp Hq Hz Hz'.
  apply in_map_iff in Hz as ([u r] & E & Hz). cbn [snd] in E. subst r.
  apply in_map_iff in Hz' as ([u' r] & E & Hz'). cbn [snd] in E. subst r.
  apply iterate_type_spec in Hz as (n & _ & ->). apply iterate_type_spec in Hz' as (m & _ & E).
  rewrite <- !app_assoc in E. apply app_inv_head in E. apply app_inv_head in E.
  apply name_levels in E as [E _]; [|now apply Hs|now apply Hs].
  now apply (NoDup_map_In p_name ps).
Qed.

Lemma NoDup_refs_by_position {A} (ref : A -> str) (base : str) (l : list A) :
  (forall i x, nth_error l i = Some x -> ref x = base ++ dec_nat i) -> NoDup (map ref l).
Proof.
  intros H. apply NoDup_nth_error. intros i j Hi E. rewrite map_length in Hi. rewrite !nth_error_map in E.
  destruct (nth_error l i) as [x|] eqn:Ex; [|now apply nth_error_None in Ex; lia].
  destruct (nth_error l j) as [y|] eqn:Ey; [|discriminate E]. cbn in E. injection E as E.
  rewrite (H _ _ Ex), (H _ _ Ey) in E. apply app_inv_head in E. now apply dec_nat_inj.
Qed.

Lemma iterate_refs g : parsed_refs g -> NoDup (map snd (iterate_over_types g)).
Proof.
  intros (Hc & He & Hp). unfold iterate_over_types. rewrite !map_app, !map_flat_map.
  assert (Hcn : forall r ps, composite g r ps -> NoDup (map p_name ps)) by (intros r ps H; now destruct (Hp r ps H)).
  assert (Hcs : forall r ps, composite g r ps -> forall p, In p ps -> no_slash (p_name p))
    by (intros r ps H; now destruct (Hp r ps H)).
  (* what is in each part *)
  assert (Pc : forall c z, In c (g_classes g) -> In z (map snd (iterate_composite (c_ref c) (c_props c))) ->
             exists i a n, nth_error (g_classes g) i = Some c /\ no_slash a /\
                           z = g_ref g ++ class_part (s_ "/classes/") i a n).
  { intros c z Hin Hz. apply in_map_iff in Hz as ([u r] & E & Hz). cbn [snd] in E. subst r.
    apply iterate_composite_spec in Hz as (p & n & Hpi & _ & ->).
    destruct (In_nth_error _ _ Hin) as [i Hi]. exists i, (p_name p), n. split; [exact Hi|].
    split; [apply (Hcs _ _ (composite_class g c Hin) p Hpi)|]. rewrite (Hc _ _ Hi).
    unfold class_part. rewrite <- !app_assoc. reflexivity. }
  assert (Pe : forall e z, In e (g_embeds g) -> In z (map snd (iterate_composite (e_ref e) (e_props e))) ->
             exists i a n, nth_error (g_embeds g) i = Some e /\ no_slash a /\
                           z = g_ref g ++ class_part (s_ "/embeds/") i a n).
  { intros e z Hin Hz. apply in_map_iff in Hz as ([u r] & E & Hz). cbn [snd] in E. subst r.
    apply iterate_composite_spec in Hz as (p & n & Hpi & _ & ->).
    destruct (In_nth_error _ _ Hin) as [i Hi]. exists i, (p_name p), n. split; [exact Hi|].
    split; [apply (Hcs _ _ (composite_embed g e Hin) p Hpi)|]. rewrite (He _ _ Hi).
    unfold class_part. rewrite <- !app_assoc. reflexivity. }
  assert (Pg : forall z, In z (map snd (iterate_composite (g_ref g) (g_props g))) ->
             exists a n, no_slash a /\ z = g_ref g ++ graph_part a n).
  { intros z Hz. apply in_map_iff in Hz as ([u r] & E & Hz). cbn [snd] in E. subst r.
    apply iterate_composite_spec in Hz as (p & n & Hpi & _ & ->). exists (p_name p), n.
    split; [apply (Hcs _ _ (composite_graph g) p Hpi)|reflexivity]. }
  assert (Kc : no_slash (s_ "classes")) by (intros H; cbn in H; intuition discriminate).
  assert (Ke : no_slash (s_ "embeds")) by (intros H; cbn in H; intuition discriminate).
  apply NoDup_app_disjoint; [|apply NoDup_app_disjoint|].
  - apply NoDup_flat_map.
    + apply NoDup_of_map with (f := c_ref).
      apply (NoDup_refs_by_position c_ref (g_ref g ++ s_ "/classes/")). intros i c Hi.
      rewrite (Hc _ _ Hi). now rewrite <- app_assoc.
    + intros c Hin. pose proof (composite_class g c Hin) as HC.
      apply iterate_composite_refs; [exact (Hcn _ _ HC)|exact (Hcs _ _ HC)].
    + intros c d z Hin Hin' Hz Hz'.
      destruct (Pc _ _ Hin Hz) as (i & a & n & Hi & Ha & ->).
      destruct (Pc _ _ Hin' Hz') as (j & b & m & Hj & Hb & E). apply app_inv_head in E.
      apply class_part_inj in E as (-> & _ & _); [|assumption|assumption]. congruence.
  - apply NoDup_flat_map.
    + apply NoDup_of_map with (f := e_ref).
      apply (NoDup_refs_by_position e_ref (g_ref g ++ s_ "/embeds/")). intros i c Hi.
      rewrite (He _ _ Hi). now rewrite <- app_assoc.
    + intros e Hin. pose proof (composite_embed g e Hin) as HC.
      apply iterate_composite_refs; [exact (Hcn _ _ HC)|exact (Hcs _ _ HC)].
    + intros c d z Hin Hin' Hz Hz'.
      destruct (Pe _ _ Hin Hz) as (i & a & n & Hi & Ha & ->).
      destruct (Pe _ _ Hin' Hz') as (j & b & m & Hj & Hb & E). apply app_inv_head in E.
      apply class_part_inj in E as (-> & _ & _); [|assumption|assumption]. congruence.
  - pose proof (composite_graph g) as HC. apply iterate_composite_refs; [exact (Hcn _ _ HC)|exact (Hcs _ _ HC)].
  - intros z Hz Hz'. apply in_flat_map in Hz as (e & Hin & Hz).
    destruct (Pe _ _ Hin Hz) as (i & a & n & Hi & Ha & ->).
    destruct (Pg _ Hz') as (b & m & Hb & E). apply app_inv_head in E. symmetry in E.
    now apply (graph_class_part (s_ "embeds")) in E.
  - intros z Hz Hz'. apply in_flat_map in Hz as (c & Hin & Hz).
    destruct (Pc _ _ Hin Hz) as (i & a & n & Hi & Ha & ->). apply in_app_or in Hz' as [Hz'|Hz'].
    + apply in_flat_map in Hz' as (e & Hin' & Hz').
      destruct (Pe _ _ Hin' Hz') as (j & b & m & Hj & Hb & E). apply app_inv_head in E.
      now apply class_embed_part in E.
    + destruct (Pg _ Hz') as (b & m & Hb & E). apply app_inv_head in E. symmetry in E.
      now apply (graph_class_part (s_ "classes")) in E.
Qed.

(** * Patterns *)

(** The patterns assigned so far have distinct numbers below the next one. *)
Definition enum_ok (st : pmap * nat) : Prop :=
  NoDup (keys (fst st)) /\ NoDup (map snd (fst st)) /\ Forall (fun i => i < snd st) (map snd (fst st)).

Lemma upsert_values p i (m : pmap) :
  NoDup (keys m) -> Permutation (map snd (upsert p i m)) (i :: map snd (filter (fun e => negb (str_eqb p (fst e))) m)).
Proof.
  induction m as [|[q j] m IH]; intros Hk; cbn [upsert map snd filter fst]; [apply Permutation_refl|].
  cbn [keys map fst] in Hk. inversion Hk as [|x l Hx Hl]; subst. destruct (str_eqb p q) eqn:E; cbn [negb].
  - apply str_eqb_eq in E. subst q. cbn [map snd].
    assert (F : filter (fun e => negb (str_eqb p (fst e))) m = m).
    { clear IH Hk Hl. induction m as [|[q l] m IH]; [reflexivity|]. cbn [filter fst].
      destruct (str_eqb p q) eqn:E.
      - apply str_eqb_eq in E. subst q. exfalso. apply Hx. now left.
      - cbn [negb]. rewrite IH; [reflexivity|]. intros H. apply Hx. now right. }
    rewrite F. apply Permutation_refl.
  - cbn [map snd]. rewrite (IH Hl). apply perm_swap.
Qed.

Lemma filter_values_incl (f : str * nat -> bool) m x : In x (map snd (filter f m)) -> In x (map snd m).
Proof.
  intros H. apply in_map_iff in H as (e & <- & H). apply filter_In in H as [H _]. now apply in_map.
Qed.
Lemma NoDup_filter_values (f : str * nat -> bool) m : NoDup (map snd m) -> NoDup (map snd (filter f m)).
Proof.
  induction m as [|e m IH]; intros H; [constructor|]. cbn [map] in H. inversion H; subst. cbn [filter].
  destruct (f e); [|auto]. cbn [map]. constructor; [|auto]. intros Hi. apply H2. eapply filter_values_incl. exact Hi.
Qed.

Lemma enum_ok_upsert p st : enum_ok st -> enum_ok (upsert p (snd st) (fst st), S (snd st)).
Proof.
  intros (Hk & Hv & Hb). unfold enum_ok. cbn [fst snd]. split; [now apply NoDup_keys_upsert|].
  pose proof (upsert_values p (snd st) (fst st) Hk) as HP. rewrite Forall_forall in Hb. split.
  - eapply Permutation_NoDup; [apply Permutation_sym, HP|]. constructor; [|now apply NoDup_filter_values].
    intros H. apply filter_values_incl in H. apply Hb in H. lia.
  - apply Forall_forall. intros x Hx. apply (Permutation_in _ HP) in Hx as [<-|Hx]; [lia|].
    apply filter_values_incl in Hx. apply Hb in Hx. lia.
Qed.

(** Every step keeps this and adds to the keys. *)
Definition enum_step (f : pmap * nat -> pmap * nat) (P : str -> Prop) : Prop :=
  forall st, enum_ok st -> enum_ok (f st) /\ forall p, In p (keys (fst (f st))) <-> In p (keys (fst st)) \/ P p.

Lemma enum_step_ext f P Q : (forall p, P p <-> Q p) -> enum_step f P -> enum_step f Q.
Proof. intros E H st Hs. destruct (H st Hs) as [H1 H2]. split; [exact H1|]. intros p. rewrite H2, E. tauto. Qed.

Lemma enum_step_one p : enum_step (fun st : pmap * nat => let (m, i) := st in (upsert p i m, S i)) (fun q => q = p).
Proof.
  intros [m i] Hs. split; [apply (enum_ok_upsert p (m, i) Hs)|]. intros q. cbn [fst].
  rewrite keys_upsert_In. split; [intros [H|H]; auto|intros [H|H]; auto].
Qed.

Lemma enum_step_none : enum_step (fun st => st) (fun _ => False).
Proof. intros st Hs. split; [exact Hs|]. intros p. tauto. Qed.

Lemma enum_step_fold {A} (f : A -> pmap * nat -> pmap * nat) (P : A -> str -> Prop) l :
  (forall x, In x l -> enum_step (f x) (P x)) ->
  enum_step (fun st => fold_left (fun st x => f x st) l st) (fun p => exists x, In x l /\ P x p).
Proof.
  induction l as [|x l IH]; intros Hf st Hs; cbn [fold_left].
  - split; [exact Hs|]. intros p. split; [now left|]. intros [H|(x & [] & _)]. exact H.
  - destruct (Hf x (or_introl eq_refl) st Hs) as [H1 H2].
    destruct (IH (fun y Hy => Hf y (or_intror Hy)) _ H1) as [H3 H4]. split; [exact H3|].
    intros p. rewrite H4, H2. split.
    + intros [[H|H]|(y & Hy & H)]; [now left|right; exists x; split; [now left|exact H]|].
      right. exists y. split; [now right|exact H].
    + intros [H|(y & [<-|Hy] & H)]; [tauto|tauto|]. right. exists y. tauto.
Qed.

Lemma enum_step_then f g P Q : enum_step f P -> enum_step g Q -> enum_step (fun st => g (f st)) (fun p => P p \/ Q p).
Proof.
  intros Hf Hg st Hs. destruct (Hf st Hs) as [H1 H2]. destruct (Hg _ H1) as [H3 H4]. split; [exact H3|].
  intros p. rewrite H4, H2. tauto.
Qed.

Definition pattern_in (t : ty) (p : str) : Prop :=
  exists n, inside t n (TStr (Some p)) \/ inside t n (TPath (Some p)).

Lemma enum_type_step t : enum_step (enum_type t) (pattern_in t).
Proof.
  assert (Hnone : forall t, (forall n u, inside t n u -> u = t) -> (forall p, t <> TStr (Some p) /\ t <> TPath (Some p)) ->
             forall p, False <-> pattern_in t p).
  { intros u H1 H2 p. split; [easy|]. intros (n & [H|H]); apply H1 in H; destruct (H2 p) as [A B]; congruence. }
  induction t; cbn [enum_type];
    try (apply (enum_step_ext _ (fun _ => False)); [|apply enum_step_none]; apply Hnone;
         [intros n u H; now inversion H|intros p; split; discriminate]).
  - destruct pattern as [q|].
    + apply (enum_step_ext _ (fun p => p = q)); [|apply enum_step_one]. intros p. split.
      * intros ->. exists 0. left. constructor.
      * intros (n & [H|H]); inversion H; reflexivity.
    + apply (enum_step_ext _ (fun _ => False)); [|apply enum_step_none]. apply Hnone;
        [intros n u H; now inversion H|intros p; split; discriminate].
  - destruct pattern as [q|].
    + apply (enum_step_ext _ (fun p => p = q)); [|apply enum_step_one]. intros p. split.
      * intros ->. exists 0. right. constructor.
      * intros (n & [H|H]); inversion H; reflexivity.
    + apply (enum_step_ext _ (fun _ => False)); [|apply enum_step_none]. apply Hnone;
        [intros n u H; now inversion H|intros p; split; discriminate].
  - eapply enum_step_ext; [|exact IHt]. intros p. split.
    + intros (n & [H|H]); exists (S n); [left|right]; now constructor.
    + intros (n & [H|H]); inversion H; subst; eexists; [left|right]; eassumption.
  - eapply enum_step_ext; [|exact IHt]. intros p. split.
    + intros (n & [H|H]); exists (S n); [left|right]; now constructor.
    + intros (n & [H|H]); inversion H; subst; eexists; [left|right]; eassumption.
Qed.

Lemma enum_props_step ps : enum_step (enum_props ps) (fun p => exists q, In q ps /\ pattern_in (p_type q) p).
Proof.
  apply (enum_step_fold (fun q st => enum_type (p_type q) st) (fun q => pattern_in (p_type q))).
  intros q _. apply enum_type_step.
Qed.

Definition id_pattern_step (c : cls) : pmap * nat -> pmap * nat :=
  fun st => match c_id_pattern c with
            | Some p => let (m, next_id) := st in (upsert p next_id m, S next_id)
            | None => st
            end.

Lemma enumerate_spec g :
  NoDup (keys (enumerate_patterns g)) /\ NoDup (map snd (enumerate_patterns g)) /\
  forall p, In p (keys (enumerate_patterns g)) <-> pattern_of g p.
Proof.
  assert (H0 : enum_ok ([], 0)) by (repeat split; constructor).
  pose (P0 := fun p => exists c, In c (g_classes g) /\ c_id_pattern c = Some p).
  pose (P1 := fun p => exists c, In c (g_classes g) /\ exists q, In q (c_props c) /\ pattern_in (p_type q) p).
  pose (P2 := fun p => exists e, In e (g_embeds g) /\ exists q, In q (e_props e) /\ pattern_in (p_type q) p).
  pose (P3 := fun p => exists q, In q (g_props g) /\ pattern_in (p_type q) p).
  assert (S0 : enum_step (fun st => fold_left (fun st c => id_pattern_step c st) (g_classes g) st) P0).
  { apply (enum_step_fold id_pattern_step (fun c p => c_id_pattern c = Some p)). intros c _.
    unfold id_pattern_step. destruct (c_id_pattern c) as [q|].
    - apply (enum_step_ext _ (fun p => p = q)); [|apply enum_step_one]. intros p. split; congruence.
    - apply (enum_step_ext _ (fun _ => False)); [|apply enum_step_none]. intros p. split; [easy|discriminate]. }
  assert (S1 : enum_step (fun st => fold_left (fun st c => enum_props (c_props c) st) (g_classes g) st) P1).
  { apply (enum_step_fold (fun c st => enum_props (c_props c) st)
             (fun c p => exists q, In q (c_props c) /\ pattern_in (p_type q) p)). intros c _. apply enum_props_step. }
  assert (S2 : enum_step (fun st => fold_left (fun st e => enum_props (e_props e) st) (g_embeds g) st) P2).
  { apply (enum_step_fold (fun e st => enum_props (e_props e) st)
             (fun e p => exists q, In q (e_props e) /\ pattern_in (p_type q) p)). intros e _. apply enum_props_step. }
  pose proof (enum_props_step (g_props g)) as S3.
  pose proof (enum_step_then _ _ _ _ (enum_step_then _ _ _ _ (enum_step_then _ _ _ _ S0 S1) S2) S3) as S.
  destruct (S _ H0) as [(Hk & Hv & _) Hin].
  change (fst (enum_props (g_props g) _)) with (enumerate_patterns g) in Hk, Hv, Hin.
  split; [exact Hk|]. split; [exact Hv|]. intros p. rewrite Hin. cbn [fst keys map In].
  assert (Hvt : forall r ps q, composite g r ps -> In q ps -> pattern_in (p_type q) p -> pattern_of g p).
  { intros r ps q Hc Hq (n & [H|H]).
    - eapply pattern_of_string. econstructor; [exact Hc|exact Hq|exact H|reflexivity].
    - eapply pattern_of_path. econstructor; [exact Hc|exact Hq|exact H|reflexivity]. }
  split.
  - intros [[]|[[[(c & Hc & H)|(c & Hc & q & Hq & H)]|(e & He & q & Hq & H)]|(q & Hq & H)]].
    + now apply (pattern_of_id g p c).
    + apply (Hvt _ _ q (composite_class g c Hc) Hq H).
    + apply (Hvt _ _ q (composite_embed g e He) Hq H).
    + apply (Hvt _ _ q (composite_graph g) Hq H).
  - assert (Hi : forall r ps q, composite g r ps -> In q ps -> pattern_in (p_type q) p -> P1 p \/ P2 p \/ P3 p).
    { intros r ps q Hc Hq H. inversion Hc; subst.
      - left. exists c. split; [assumption|]. exists q. auto.
      - right. left. exists e. split; [assumption|]. exists q. auto.
      - right. right. exists q. auto. }
    intros [c Hc H|ref [r ps q n Hc Hq H _]|ref [r ps q n Hc Hq H _]]; right.
    + left. left. left. exists c. auto.
    + assert (HH : pattern_in (p_type q) p) by (exists n; now left).
      pose proof (Hi _ _ _ Hc Hq HH) as HD. unfold P1, P2, P3 in HD. tauto.
    + assert (HH : pattern_in (p_type q) p) by (exists n; now right).
      pose proof (Hi _ _ _ Hc Hq HH) as HD. unfold P1, P2, P3 in HD. tauto.
Qed.

Lemma all_distinct_NoDup l : NoDup l -> all_distinct l = true.
Proof.
  induction 1 as [|x l Hx Hl IH]; [reflexivity|]. cbn [all_distinct]. rewrite IH, andb_true_r.
  apply negb_true_iff. apply not_true_is_false. intros H. apply existsb_exists in H as (y & Hy & E).
  apply Nat.eqb_eq in E. now subst.
Qed.

Lemma insert_nat_perm n l : Permutation (insert_nat n l) (n :: l).
Proof.
  induction l as [|m l IH]; [apply Permutation_refl|]. cbn [insert_nat]. destruct (n <=? m); [apply Permutation_refl|].
  rewrite IH. apply perm_swap.
Qed.
Lemma sort_nat_perm l : Permutation (sort_nat l) l.
Proof.
  induction l as [|n l IH]; [apply Permutation_refl|]. cbn [sort_nat]. rewrite insert_nat_perm. now constructor.
Qed.

Lemma nlookup_spec n p (m : list (nat * str)) : NoDup (map fst m) -> In (n, p) m -> nlookup n m = Some p.
Proof.
  intros Hn Hin. unfold nlookup. apply in_rev in Hin.
  assert (Hr : NoDup (map fst (rev m))) by (rewrite map_rev; now apply NoDup_rev).
  clear Hn. induction (rev m) as [|[k q] l IH]; [easy|]. cbn [find fst]. cbn [map fst] in Hr. inversion Hr; subst.
  destruct Hin as [E|Hin].
  - injection E as -> ->. now rewrite Nat.eqb_refl.
  - destruct (Nat.eqb_spec n k) as [->|]; [|now apply IH]. exfalso. apply H1.
    change k with (fst (k, p)). now apply in_map.
Qed.

Lemma compile_spec (m : pmap) :
  NoDup (keys m) -> NoDup (map snd m) ->
  exists decls, compile_regexes m = Some decls /\
    Permutation decls (map (fun e => (s_ "pattern" ++ dec_nat (snd e), fst e)) m).
Proof.
  intros Hk Hv. unfold compile_regexes. rewrite (all_distinct_NoDup _ Hv).
  pose (inv := map (fun e : str * nat => (snd e, fst e)) m). fold inv.
  assert (Hf : map fst inv = map snd m).
  { unfold inv. rewrite map_map. reflexivity. }
  assert (Hn : NoDup (map fst inv)) by (now rewrite Hf).
  pose (row := fun uid => (s_ "pattern" ++ dec_nat uid, match nlookup uid inv with Some p => p | None => [] end)).
  assert (HF : forall l, incl l (map fst inv) ->
    fold_right (fun uid acc =>
                  match nlookup uid inv, acc with
                  | Some p, Some l => Some ((s_ "pattern" ++ dec_nat uid, p) :: l)
                  | _, _ => None
                  end) (Some []) l = Some (map row l)).
  { induction l as [|x l IH]; intros Hi; [reflexivity|]. cbn [fold_right map]. rewrite IH.
    - assert (Hx : In x (map fst inv)) by (apply Hi; now left).
      apply in_map_iff in Hx as ([k p] & E & Hx). cbn [fst] in E. subst k.
      unfold row at 2. now rewrite (nlookup_spec x p inv Hn Hx).
    - intros y Hy. apply Hi. now right. }
  exists (map row (sort_nat (map fst inv))). split.
  - apply HF. intros x Hx. eapply Permutation_in; [apply sort_nat_perm|exact Hx].
  - rewrite (sort_nat_perm (map fst inv)). rewrite map_map.
    assert (E : map (fun x => row (fst x)) inv = map (fun e => (s_ "pattern" ++ dec_nat (snd e), fst e)) m).
    { assert (HI : forall e, In e inv -> row (fst e) = (s_ "pattern" ++ dec_nat (fst e), snd e)).
      { intros [k p] Hin. unfold row. cbn [fst snd]. now rewrite (nlookup_spec k p inv Hn Hin). }
      rewrite (map_ext_in _ _ _ HI). unfold inv. rewrite map_map. reflexivity. }
    rewrite E. apply Permutation_refl.
Qed.
