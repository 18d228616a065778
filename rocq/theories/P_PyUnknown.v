(** C07: members unknown to the schema do not influence parsing. *)
From Verif Require Import Base M_Naming M_Errors M_Dec M_Schema M_PyGen S_Conform S_PyGen.
From Coq Require Import String List Arith NArith ZArith Bool Lia.
Import ListNotations.

Definition same {A} (m m' : M A) : Prop := forall es, m es = m' es.

Lemma same_refl {A} (m : M A) : same m m.
Proof. intros es. reflexivity. Qed.

Lemma same_bind {A B} (m m' : M A) (f f' : A -> M B) :
  same m m' -> (forall a, same (f a) (f' a)) -> same (mbind m f) (mbind m' f').
Proof.
  intros Hm Hf es. unfold mbind. rewrite Hm. destruct (m' es) as [[a es']|]; [apply Hf|reflexivity].
Qed.

Lemma same_full {A} (a : A) (m m' : M A) :
  same m m' ->
  same (fun es => if py_full es then Ok (a, es) else m es)
       (fun es => if py_full es then Ok (a, es) else m' es).
Proof. intros H es. destruct (py_full es); [reflexivity|apply H]. Qed.

Lemma Forall2_length {A B} (P : A -> B -> Prop) l l' : Forall2 P l l' -> length l = length l'.
Proof. induction 1; simpl; congruence. Qed.

Section Py.
  Variable X : ext.
  Variable S : py_settings.
  Variable G : graph.

  Lemma lookup_members R l k :
    lookup k (members_of X S G R (JObj l)) =
    match lookup k l with Some v => Some (v, parse_value X S G R v) | None => None end.
  Proof.
    simpl. induction l as [|[k' v] l IH]; simpl; [reflexivity|].
    destruct (str_eqb k k'); [reflexivity|exact IH].
  Qed.

  Lemma same_parse_items ps ps' t ref :
    Forall2 (fun p p' : parser => forall r, same (p t r) (p' t r)) ps ps' ->
    forall i target, same (parse_items ps t ref i target) (parse_items ps' t ref i target).
  Proof.
    induction 1 as [|p p' ps ps' Hp _ IH]; intros i target; simpl; [apply same_refl|].
    apply same_bind; [apply Hp|]. intros item. apply same_full. apply IH.
  Qed.

  Lemma same_parse_entries ps ps' t ref :
    Forall2 (fun kp kp' : str * parser =>
               fst kp = fst kp' /\ forall r, same (snd kp t r) (snd kp' t r)) ps ps' ->
    forall target, same (parse_entries X ps t ref target) (parse_entries X ps' t ref target).
  Proof.
    induction 1 as [|[k p] [k' p'] ps ps' [Hk Hp] _ IH]; intros target; simpl in *; [apply same_refl|].
    subst k'. apply same_bind; [apply Hp|]. intros item. apply same_full. apply IH.
  Qed.

  (** What [parse_property] needs to know about the members. *)
  Definition member_same (p : prop) (o o' : members) : Prop :=
    (lookup (p_json p) o = None /\ lookup (p_json p) o' = None) \/
    (exists v v' q q', lookup (p_json p) o = Some (v, q) /\ lookup (p_json p) o' = Some (v', q') /\
       (v = JNull <-> v' = JNull) /\ forall r, same (q (p_type p) r) (q' (p_type p) r)).

  Lemma parse_property_nonnull p o ref attrs v q :
    lookup (p_json p) o = Some (v, q) -> v <> JNull ->
    same (parse_property p o ref attrs)
      (mdo r <- q (p_type p) (slash ref (p_json p));
       ret (match r with Some x => upsert (attr (p_name p)) x attrs | None => attrs end)).
  Proof.
    intros E Hv es. unfold parse_property. rewrite E. destruct v; try reflexivity. congruence.
  Qed.

  Lemma same_parse_property p o o' ref attrs :
    member_same p o o' -> same (parse_property p o ref attrs) (parse_property p o' ref attrs).
  Proof.
    intros [[E E']|(v & v' & q & q' & E & E' & Hn & Hq)] es.
    - unfold parse_property. rewrite E, E'. reflexivity.
    - assert (Hd : v = JNull \/ v <> JNull) by (destruct v; (left; reflexivity) || (right; discriminate)).
      destruct Hd as [Hd|Hd].
      + unfold parse_property. rewrite E, E'. rewrite (proj1 Hn Hd), Hd. reflexivity.
      + rewrite (parse_property_nonnull _ _ _ _ _ _ E Hd).
        rewrite (parse_property_nonnull _ _ _ _ _ _ E' (fun H => Hd (proj2 Hn H))).
        apply same_bind; [apply Hq|]. intros r. apply same_refl.
  Qed.

  Lemma same_parse_properties ps o o' ref :
    (forall p, In p ps -> member_same p o o') ->
    forall attrs, same (parse_properties ps o ref attrs) (parse_properties ps o' ref attrs).
  Proof.
    induction ps as [|p ps IH]; intros H attrs; simpl; [apply same_refl|].
    apply same_bind.
    - apply same_parse_property. apply H. left. reflexivity.
    - intros a. apply same_full. apply IH. intros q Hq. apply H. right. exact Hq.
  Qed.

  Lemma agree_null t v v' : agree G t v v' -> (v = JNull <-> v' = JNull).
  Proof. destruct 1; split; congruence. Qed.

  Lemma same_parse_value R v : forall t v', agree G t v v' ->
    forall ref, same (parse_value X S G R v t ref) (parse_value X S G R v' t ref).
  Proof.
    induction v as [| | | | |l IH|l IH] using jval_ind'; intros t v' Ha ref;
      inversion Ha as [t0 v0 Et Ev Ev'|t0 mn mx l0 l' Hl Et Ev Ev'|t0 l0 l' Hl Et Ev Ev'
                      |n e l0 l' He Hf Et Ev Ev']; subst; try apply same_refl.
    - (* array *)
      cbn [parse_value].
      assert (HF : Forall2 (fun p p' : parser => forall r, same (p t0 r) (p' t0 r))
                    (map (parse_value X S G R) l) (map (parse_value X S G R) l')).
      { clear Ha. induction Hl as [|x y xs ys Hxy _ IHl]; simpl; constructor.
        - intros r. apply (Forall_inv IH). exact Hxy.
        - apply IHl. exact (Forall_inv_tail IH). }
      unfold parse_array. rewrite !map_length.
      rewrite (Forall2_length _ _ _ Hl).
      destruct (match mn with Some _ => _ | None => _ end); [apply same_refl|].
      destruct (match mx with Some _ => _ | None => _ end); [apply same_refl|].
      apply same_bind; [|intros; apply same_refl]. apply same_parse_items. exact HF.
    - (* map *)
      cbn [parse_value]. apply same_bind; [|intros; apply same_refl].
      apply same_parse_entries. clear Ha.
      induction Hl as [|x y xs ys [Hk Hxy] _ IHl]; simpl; constructor.
      + split; [exact Hk|]. intros r. apply (Forall_inv IH). exact Hxy.
      + apply IHl. exact (Forall_inv_tail IH).
    - (* embed *)
      cbn [parse_value]. rewrite He. apply same_bind; [|intros; apply same_refl].
      unfold composite_from. apply same_bind; [|intros []; apply same_refl].
      apply same_parse_properties. intros p Hp.
      change (member_same p (members_of X S G R (JObj l)) (members_of X S G R (JObj l'))).
      unfold member_same. rewrite !lookup_members.
      destruct (Hf p Hp) as [[E E']|(v & v' & E & E' & Hv)]; rewrite E, E'.
      + left. auto.
      + right. exists v, v', (parse_value X S G R v), (parse_value X S G R v').
        repeat split; try reflexivity; try apply (agree_null _ _ _ Hv).
        intros r. rewrite Forall_forall in IH. apply lookup_In in E.
        apply (IH _ E). exact Hv.
  Qed.

  Lemma fields_same R ps l l' : fields_agree G ps l l' ->
    forall p, In p ps -> member_same p (members_of X S G R (JObj l)) (members_of X S G R (JObj l')).
  Proof.
    intros H p Hp. unfold member_same. rewrite !lookup_members.
    destruct (H p Hp) as [[E E']|(v & v' & E & E' & Hv)]; rewrite E, E'.
    - left. auto.
    - right. exists v, v', (parse_value X S G R v), (parse_value X S G R v').
      repeat split; try reflexivity; try apply (agree_null _ _ _ Hv).
      intros r. apply same_parse_value. exact Hv.
  Qed.

  Lemma same_parse_instances c R reg ref m m' :
    Forall2 (fun kv kv' => fst kv = fst kv' /\ instance_agree G c (snd kv) (snd kv')) m m' ->
    forall heap, same (parse_instances X S G c R reg ref m heap)
                      (parse_instances X S G c R reg ref m' heap).
  Proof.
    induction 1 as [|[id v] [id' v'] m m' [Hk Hv] _ IH]; intros heap; simpl in *; [apply same_refl|].
    subst id'. destruct (lookup id reg) as [a|]; [|apply same_refl].
    destruct (nth_error heap a) as [i|]; [|apply same_refl].
    apply same_bind.
    - destruct Hv as [<-|(l & l' & -> & -> & Hf)]; [apply same_refl|].
      unfold composite_from. apply same_bind; [|intros []; apply same_refl].
      apply same_parse_properties. apply fields_same. exact Hf.
    - intros attrs. apply same_full. apply IH.
  Qed.

  Lemma keys_agree {A} (P : A -> A -> Prop) (m m' : list (str * A)) :
    Forall2 (fun kv kv' => fst kv = fst kv' /\ P (snd kv) (snd kv')) m m' -> keys m = keys m'.
  Proof.
    induction 1 as [|[] [] ? ? [Hk _] _ IH]; simpl in *; [reflexivity|].
    unfold keys in *. rewrite Hk, IH. reflexivity.
  Qed.

  Definition registry_same (c : cls) (l l' : list (str * jval)) : Prop :=
    lookup (py_key c) l = lookup (py_key c) l' \/
    exists m m', lookup (py_key c) l = Some (JObj m) /\ lookup (py_key c) l' = Some (JObj m') /\
      Forall2 (fun kv kv' => fst kv = fst kv' /\ instance_agree G c (snd kv) (snd kv')) m m'.

  Lemma same_preallocate R0 cs l l' ref : (forall c, In c cs -> registry_same c l l') ->
    forall R heap, same (preallocate X cs (members_of X S G R0 (JObj l)) ref R heap)
                        (preallocate X cs (members_of X S G R0 (JObj l')) ref R heap).
  Proof.
    induction cs as [|c cs IH]; intros H R heap; [apply same_refl|].
    cbn [preallocate]. apply same_bind.
    - rewrite !lookup_members. fold (py_key c).
      destruct (H c (or_introl eq_refl)) as [E|(m & m' & E & E' & Hm)].
      + rewrite E. apply same_refl.
      + rewrite E, E', (keys_agree _ _ _ Hm). apply same_refl.
    - intros [R' heap']. apply same_full. apply IH. intros d Hd. apply H. right. exact Hd.
  Qed.

  Lemma same_parse_registries R cs l l' ref : (forall c, In c cs -> registry_same c l l') ->
    forall heap, same (parse_registries X S G cs (members_of X S G R (JObj l)) ref R heap)
                      (parse_registries X S G cs (members_of X S G R (JObj l')) ref R heap).
  Proof.
    induction cs as [|c cs IH]; intros H heap; [apply same_refl|].
    assert (IH' : forall heap, same
       (parse_registries X S G cs (members_of X S G R (JObj l)) ref R heap)
       (parse_registries X S G cs (members_of X S G R (JObj l')) ref R heap)).
    { apply IH. intros d Hd. apply H. right. exact Hd. }
    cbn [parse_registries].
    rewrite !lookup_members. fold (py_key c).
    destruct (H c (or_introl eq_refl)) as [E|(m & m' & E & E' & Hm)].
    - rewrite E. destruct (lookup (py_key c) l') as [[]|]; try apply same_refl; [|apply IH'].
      destruct (lookup _ R); [|apply same_refl].
      apply same_bind; [apply same_refl|]. intros [?|]; [apply IH'|apply same_refl].
    - rewrite E, E'. destruct (lookup _ R); [|apply same_refl].
      apply same_bind; [apply same_parse_instances; exact Hm|].
      intros [?|]; [apply IH'|apply same_refl].
  Qed.

  Lemma same_graph_from l l' ref :
    graph_agree G l l' -> same (graph_from X S G (JObj l) ref) (graph_from X S G (JObj l') ref).
  Proof.
    intros [Hc Hp]. unfold graph_from. apply same_full.
    apply same_bind; [apply same_preallocate; exact Hc|].
    intros [[R heap]|]; [|apply same_refl]. intros es.
    destruct (_ && _); [reflexivity|].
    apply same_bind; [apply same_parse_registries; exact Hc|].
    intros [heap'|]; [|apply same_refl].
    apply same_bind; [|intros; apply same_refl].
    apply same_parse_properties. apply fields_same. exact Hp.
  Qed.

  (** Inserting one unknown member at the top level. *)
  Lemma lookup_insert {A} k (l1 l2 : list (str * A)) k' x :
    k <> k' -> lookup k (l1 ++ (k', x) :: l2) = lookup k (l1 ++ l2).
  Proof.
    intros H. induction l1 as [|[k1 v1] l1 IH]; simpl.
    - apply str_eqb_neq in H. rewrite H. reflexivity.
    - rewrite IH. reflexivity.
  Qed.

  Lemma graph_agree_insert l1 l2 k x :
    (forall c, In c (g_classes G) -> py_key c <> k) ->
    (forall p, In p (g_props G) -> p_json p <> k) ->
    graph_agree G (l1 ++ l2) (l1 ++ (k, x) :: l2).
  Proof.
    intros Hc Hp. split.
    - intros c Hi. left. symmetry. apply lookup_insert. auto.
    - intros p Hi. rewrite lookup_insert by auto.
      destruct (lookup (p_json p) (l1 ++ l2)) as [v|]; [right|left; auto].
      exists v, v. repeat split. constructor.
  Qed.
End Py.
