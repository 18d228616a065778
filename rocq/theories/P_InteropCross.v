(** From acceptance in one language to acceptance in another. *)
From Coq Require Import String List ZArith NArith Bool Lia Floats.SpecFloat.
From Verif Require Import Base M_Naming M_Schema M_Num M_PyGen M_GoGen M_CppGen
  S_Conform S_Common S_PyGen S_GoGen S_CppGen S_Interop P_Common P_PyClean P_Interop P_InteropLang.
Import ListNotations.
Local Open Scope nat_scope.

(** ** Numbers *)
Lemma range_float b f z : float_is f z -> in_range b z -> float_in_range b f.
Proof.
  intros F [H1 H2]. split; intros m E; rewrite (float_is_cmp _ _ m F).
  - specialize (H1 m E). destruct (b_exmin b).
    + left. f_equal. apply Z.compare_gt_iff. lia.
    + destruct (Z.compare_spec z m) as [->|?|?]; [right; auto|lia|left; reflexivity].
  - specialize (H2 m E). destruct (b_exmax b).
    + left. f_equal. apply Z.compare_lt_iff. lia.
    + destruct (Z.compare_spec z m) as [->|?|?]; [right; auto|left; reflexivity|lia].
Qed.

Lemma float_range b f z : float_is f z -> float_in_range b f -> in_range b z.
Proof.
  intros F [H1 H2]. split; intros m E.
  - specialize (H1 m E). rewrite (float_is_cmp _ _ m F) in H1. destruct (Z.compare_spec z m) as [->|Hl|Hg].
    + destruct H1 as [H1|[-> _]]; [discriminate|]. lia.
    + destruct H1 as [H1|[_ H1]]; discriminate.
    + destruct (b_exmin b); lia.
  - specialize (H2 m E). rewrite (float_is_cmp _ _ m F) in H2. destruct (Z.compare_spec z m) as [->|Hl|Hg].
    + destruct H2 as [H2|[-> _]]; [discriminate|]. lia.
    + destruct (b_exmax b); lia.
    + destruct H2 as [H2|[_ H2]]; discriminate.
Qed.

Lemma rep_float z : representable z -> exists f, float_of_Z z = Some f /\ float_is f z.
Proof. auto. Qed.

Lemma rep_is z f : representable z -> float_of_Z z = Some f -> float_is f z.
Proof. intros (g & E & H) E'. congruence. Qed.

Definition is_int (v : jval) : Prop := exists z, v = JInt z.

(** ** What the languages accept *)
Ltac leaf :=
  intros; cbn -[float_of_Z] in *; unfold whole, double, int_value in *; parts; subst;
  repeat match goal with
  | H : JInt _ = JInt _ |- _ => injection H as H; subst
  | H : JFloat _ = JFloat _ |- _ => injection H as H; subst
  | H : JBool _ = JBool _ |- _ => injection H as H; subst
  | H : _ = _ |- _ => discriminate H
  | H : same_doc (JInt _) _ |- _ => inversion H; clear H; subst
  | H : same_doc (JFloat _) _ |- _ => inversion H; clear H; subst
  | H : float_is ?f ?z, H' : float_is ?f ?y |- _ =>
      tryif unify z y then fail else (pose proof (float_is_unique _ _ _ H H'); subst)
  end.

Section Leaf.
  Variables (PX : ext) (S : py_settings) (GX : gext) (CX : cext).

  Definition numeric (t : ty) : bool := match t with TInt _ | TFloat _ => true | _ => false end.

  Lemma num_py_go t v v' : numeric t = true -> same_doc v v' -> ~ is_int v' ->
    plain_number t v -> py_leaf PX S t v -> go_leaf GX t v'.
  Proof.
    destruct t; try discriminate; intros _ SD NI P L; leaf;
      try (exfalso; apply NI; eexists; reflexivity); eauto 8 using range_float.
  Qed.

  Lemma num_py_cpp t v v' : numeric t = true -> same_doc v v' ->
    plain_number t v -> py_leaf PX S t v -> cpp_leaf CX t v'.
  Proof.
    destruct t; try discriminate; intros _ SD P L; leaf; eauto 9 using range_float.
    all: match goal with R : representable ?z |- _ => destruct (rep_float _ R) as (g & Eg & Ig) end;
      eauto 9 using range_float, float_range.
  Qed.

  Lemma num_go_py t v v' : numeric t = true -> same_doc v v' ->
    plain_number t v' -> go_leaf GX t v -> py_leaf PX S t v'.
  Proof.
    destruct t; try discriminate; intros _ SD P L; leaf; eauto 9 using range_float.
    right. match goal with R : representable ?z |- _ => destruct (rep_float _ R) as (g & Eg & Ig) end.
    eexists. split; [left; reflexivity|]. split; [eapply float_range; [|eassumption]; eassumption|congruence].
  Qed.

  Lemma num_go_cpp t v v' : numeric t = true -> same_doc v v' -> go_leaf GX t v -> cpp_leaf CX t v'.
  Proof.
    destruct t; try discriminate; intros _ SD L; leaf; eauto 9 using range_float.
    match goal with R : representable ?z |- _ => destruct (rep_float _ R) as (g & Eg & Ig) end.
    eauto 9 using range_float, float_range.
  Qed.

  Lemma num_cpp_py t v v' : numeric t = true -> same_doc v v' ->
    plain_number t v' -> cpp_leaf CX t v -> py_leaf PX S t v'.
  Proof.
    destruct t; try discriminate; intros _ SD P L; leaf; eauto 9 using range_float.
    all: match goal with R : representable ?z |- _ => destruct (rep_float _ R) as (g & Eg & Ig) end.
    all: first
      [ right; eexists; split; [left; reflexivity|]; split; [eapply float_range; [|eassumption]; eassumption|congruence]
      | right; eexists; split; [left; reflexivity|]; split; [|congruence];
        eapply float_range; [|eassumption]; eapply rep_is; eassumption
      | left; eexists; split; [reflexivity|]; eapply range_float; [eassumption|]; eapply float_range; [|eassumption];
        eapply rep_is; eassumption ].
  Qed.

  Lemma num_cpp_go t v v' : numeric t = true -> same_doc v v' -> ~ is_int v' ->
    cpp_leaf CX t v -> go_leaf GX t v'.
  Proof.
    destruct t; try discriminate; intros _ SD NI L; leaf;
      try (exfalso; apply NI; eexists; reflexivity); eauto 9 using range_float.
    eexists. split; [reflexivity|]. eapply range_float; [eassumption|]. eapply float_range; [|eassumption].
    eapply rep_is; eassumption.
  Qed.

  (** The other scalars are booleans and texts. *)
  Definition other_leaf (leaf : ty -> jval -> Prop) : Prop :=
    (forall v, leaf TBool v <-> exists b, v = JBool b) /\
    (forall t v, leaf t v -> scalar t = true) /\
    forall t v, scalar t = true -> numeric t = false -> t <> TBool -> leaf t v -> exists s, v = JStr s.

  Lemma py_other : other_leaf (py_leaf PX S).
  Proof.
    split; [reflexivity|]. split; [intros t v L; destruct t; (reflexivity || destruct L)|]. intros t v Sc N B L. destruct t; try discriminate; try congruence; cbn in L; parts; eauto.
  Qed.
  Lemma go_other : other_leaf (go_leaf GX).
  Proof.
    split; [reflexivity|]. split; [intros t v L; destruct t; (reflexivity || destruct L)|]. intros t v Sc N B L. destruct t; try discriminate; try congruence; cbn in L; parts; eauto.
  Qed.
  Lemma cpp_other : other_leaf (cpp_leaf CX).
  Proof.
    split; [reflexivity|]. split; [intros t v L; destruct t; (reflexivity || destruct L)|]. intros t v Sc N B L. destruct t; try discriminate; try congruence; cbn in L; parts; eauto.
  Qed.
End Leaf.

(** ** Documents *)
Section Cross.
  Variable G : graph.

  Lemma conforms_where (leaf : ty -> jval -> Prop) (P : Z -> Prop) known v : forall t,
    conforms G leaf known t v -> all_ints P v -> conforms G (fun t v => leaf t v /\ all_ints P v) known t v.
  Proof.
    induction v as [| | | | |l IH|l IH] using jval_ind'; intros t C A.
    1-4: inversion C as [? ? Sc L| | | |]; subst; apply conf_scalar; auto.
    - inversion C as [? ? Sc L| | |n id K|]; subst; [apply conf_scalar; auto|apply conf_ref; exact K].
    - rewrite Forall_forall in IH. inversion C as [? ? Sc L|? ? ? ? Sz Cl| | |]; subst; [apply conf_scalar; auto|].
      inversion A as [| | | | |? Al|]; subst. apply conf_array; auto.
    - rewrite Forall_forall in IH. inversion A as [| | | | | |? Al]; subst.
      inversion C as [? ? Sc L| |? ? Cl| |? e ? E Cl]; subst; [apply conf_scalar; auto| |].
      + apply conf_map. intros k v Hv. apply (IH _ Hv); [eapply Cl; exact Hv|eapply Al; exact Hv].
      + eapply conf_embed; [exact E|]. intros p Hp. destruct (Cl p Hp) as [H|(v & Ev & Nv & Cv)]; [left; exact H|right].
        exists v. split; [exact Ev|]. split; [exact Nv|]. pose proof (lookup_In _ _ _ Ev) as Hv.
        apply (IH _ Hv); [exact Cv|eapply Al; exact Hv].
  Qed.

  Lemma graph_where (leaf : ty -> jval -> Prop) (P : Z -> Prop) id_ok key v :
    graph_conforms G leaf id_ok key v -> all_ints P v ->
    graph_conforms G (fun t v => leaf t v /\ all_ints P v) id_ok key v.
  Proof.
    intros (l & -> & Hc & Hf) A. exists l. split; [reflexivity|]. inversion A as [| | | | | |? Al]; subst.
    assert (HF : forall ps o, fields_conform G leaf (listed G key l) ps o -> all_ints P (JObj o) ->
              fields_conform G (fun t v => leaf t v /\ all_ints P v) (listed G key l) ps o).
    { intros ps o H Ao p Hp. destruct (H p Hp) as [H'|(w & Ev & Nv & Cv)]; [left; exact H'|right].
      exists w. split; [exact Ev|]. split; [exact Nv|]. apply conforms_where; [exact Cv|].
      inversion Ao as [| | | | | |? Aw]; subst. eapply Aw. eapply lookup_In. exact Ev. }
    split; [|apply HF; assumption]. intros c Hin. destruct (Hc c Hin) as [E|(m & Em & Hm)]; [left; exact E|right].
    exists m. split; [exact Em|]. intros id v Hv. destruct (Hm id v Hv) as (Hi & o & -> & Ho). split; [exact Hi|].
    exists o. split; [reflexivity|]. apply HF; [exact Ho|]. apply lookup_In in Em. specialize (Al _ _ Em).
    inversion Al as [| | | | | |? Am]; subst. eapply Am. exact Hv.
  Qed.

  (** The conforming documents are accepted on the other side. *)
  Lemma crossed (leaf leaf' : ty -> jval -> Prop) (id_ok id_ok' : str -> str -> Prop) (E E' : ty -> jval -> Prop) w w' :
    other_leaf leaf -> other_leaf leaf' ->
    (forall t v v', numeric t = true -> same_doc v v' -> E t v -> E' t v' -> leaf t v -> leaf' t v') ->
    texts_agree G leaf leaf' id_ok id_ok' w ->
    graph_conforms G leaf id_ok py_key w ->
    graph_conforms G E (fun _ _ => True) py_key w ->
    (forall leaf0 id0, graph_conforms G leaf0 id0 py_key w' -> graph_conforms G (fun t v => leaf0 t v /\ E' t v) id0 py_key w') ->
    same_doc w w' -> json_wf w -> json_wf w' ->
    graph_conforms G leaf' id_ok' py_key w'.
  Proof.
    intros (LB & LS & LT) (LB' & LS' & LT') HN [HT HI] C CE CE' SD W W'.
    pose proof (graph_both _ _ _ _ _ _ _ C CE) as C2. pose proof C2 as (l & -> & _).
    inversion SD as [| | | | | | | |? l' HK HV]; subst.
    pose proof (transfer_graph G _ (fun s => occurs s (JObj l)) _ _ l l' C2 SD W W' (fun s H => H)) as T.
    eapply graph_mono; [| |apply CE'; exact T].
    - intros t v' [[Hs (v & SV & [L1 L2] & Ho)] Ev'].
      destruct (numeric t) eqn:N; [eapply HN; eassumption|].
      pose proof (LS _ _ L1) as Sc. destruct t; try discriminate N; try discriminate Sc.
        1: apply LB in L1 as [b ->]; inversion SV; subst; apply LB'; eauto.
        all: destruct (LT _ v Sc N ltac:(discriminate) L1) as [s ->]; inversion SV; subst;
          (apply HT; [exact Hs|apply Ho; constructor|exact L1]).
    - intros c p id Hc Hp [H1 H2]. eapply HI; eassumption.
  Qed.
End Cross.

(** ** Scalars of two languages *)
Section Scalars.
  Variables (PX : ext) (S : py_settings) (GX : gext) (CX : cext).

  Lemma sym_float f g : same_float f g -> same_float g f.
  Proof. intros [->|(z & H1 & H2)]; [left; reflexivity|right; eauto]. Qed.

  Lemma sym_scalar L L' t a b : same_scalar L L' t a b -> same_scalar L' L t b a.
  Proof.
    destruct t; cbn; intros H; parts; subst; eauto 6 using sym_float.
  Qed.

  Ltac nums :=
    leaf; repeat match goal with R : representable ?z |- _ => destruct (rep_float _ R) as (? & ? & ?); clear R end;
    repeat match goal with H : float_of_Z ?z = Some ?f, H' : float_of_Z ?z = Some ?g |- _ =>
      tryif unify f g then fail else (rewrite H in H'; injection H' as H'; subst) end;
    try match goal with H : same_doc (JBool _) _ |- _ => inversion H end;
    first [ solve [eauto]
          | do 2 eexists; split; [reflexivity|]; split; [reflexivity|];
            first [ left; reflexivity | left; congruence | right; eexists; split; eassumption ] ].

  Lemma scalar_py_go t v v' a b : scalar t = true -> same_doc v v' ->
    scalar_rep PX S t v a -> go_scalar_rep GX t v' b -> same_scalar (Python PX S) (Go_ GX) t a b.
  Proof.
    intros Sc SD A B. destruct (numeric t) eqn:N.
    - destruct t; try discriminate N; clear Sc N; nums.
    - destruct t; try discriminate N; try discriminate Sc; clear Sc N; cbn in A, B |- *; parts; subst;
        try (inversion SD; subst); eauto 12.
  Qed.
  Lemma scalar_py_cpp t v v' a b : scalar t = true -> same_doc v v' ->
    scalar_rep PX S t v a -> cpp_scalar_rep CX t v' b -> same_scalar (Python PX S) (Cpp_ CX) t a b.
  Proof.
    intros Sc SD A B. destruct (numeric t) eqn:N.
    - destruct t; try discriminate N; clear Sc N; nums.
    - destruct t; try discriminate N; try discriminate Sc; clear Sc N; cbn in A, B |- *; parts; subst;
        try (inversion SD; subst); eauto 12.
  Qed.
  Lemma scalar_go_cpp t v v' a b : scalar t = true -> same_doc v v' ->
    go_scalar_rep GX t v a -> cpp_scalar_rep CX t v' b -> same_scalar (Go_ GX) (Cpp_ CX) t a b.
  Proof.
    intros Sc SD A B. destruct (numeric t) eqn:N.
    - destruct t; try discriminate N; clear Sc N; nums.
    - destruct t; try discriminate N; try discriminate Sc; clear Sc N; cbn in A, B |- *; parts; subst;
        try (inversion SD; subst); eauto 12.
  Qed.
End Scalars.

(** ** No null *)
Lemma same_no_null v : forall v', same_doc v v' -> no_null v -> no_null v'.
Proof.
  induction v as [| | | | |l IH|l IH] using jval_ind'; intros v' SD N.
  1-5: inversion SD; subst; solve [inversion N|constructor].
  - rewrite Forall_forall in IH. inversion SD as [| | | | | | |? l' F|]; subst. inversion N as [| | | |? Nl|]; subst.
    apply nn_arr. intros v' Hv'. clear SD N. induction F as [|x y xs ys Hxy F IHF]; [destruct Hv'|].
    destruct Hv' as [<-|Hv'].
    + eapply IH; [left; reflexivity|exact Hxy|apply Nl; left; reflexivity].
    + apply IHF; [| |exact Hv'].
      * intros z Hz. apply IH. right. exact Hz.
      * intros z Hz. apply Nl. right. exact Hz.
  - rewrite Forall_forall in IH. inversion SD as [| | | | | | | |? l' HK HV]; subst. inversion N as [| | | | |? Nl]; subst.
    apply nn_obj. intros k v' Hv'. destruct (keys_In k l) as [v Hv]; [apply HK; eapply In_keys; exact Hv'|].
    eapply (IH _ Hv); [eapply HV; eassumption|eapply Nl; exact Hv].
Qed.
