(** Theorems about the type-graph queries (properties C28 and C29). *)
From Verif Require Import Base M_TypeGraph S_TypeGraph P_TypeGraph.
From Coq Require Import String List Arith Sorted Lia.
Import ListNotations.

(** C28: for every (possibly cyclic) heap of types, [needs_type] terminates
    (within a call depth of twice the number of objects) and answers whether a
    type of the queried kind is reachable. *)
Theorem C28_needs_type : forall h q a fuel,
  heap_wf h -> a < length h -> 2 * length h + 2 <= fuel ->
  exists b, needs_type h q fuel a = Some b /\
    (b = true <-> exists y, reach h a y /\ has_kind h y q).
Proof. exact needs_type_exact. Qed.

(** C29: [references] terminates and lists exactly the classes reachable from
    the properties, strictly sorted by name. *)
Theorem C29_references : forall h fuel ps,
  heap_wf h -> graph_is_root h -> names_unique h ->
  length h < fuel -> (forall p, In p ps -> value_type h p) ->
  exists l, references h fuel ps = Some l /\ NoDup l /\ StronglySorted (name_before h) l /\
    forall n, In n l <-> has_kind h n KClass /\ exists p, In p ps /\ reach h p n.
Proof. exact references_exact. Qed.

(** C29, second part: the registries that an embedded structure needs are
    among those of the enclosing composite. *)
Theorem C29_references_nested : forall h fuel ps e n qs l l',
  heap_wf h -> graph_is_root h -> names_unique h -> length h < fuel ->
  (forall p, In p ps -> value_type h p) ->
  nth_error h e = Some (OEmbed n qs) -> (exists p, In p ps /\ reach h p e) ->
  references h fuel ps = Some l -> references h fuel qs = Some l' -> incl l' l.
Proof. exact references_nested. Qed.

(** Non-vacuity: two classes referring to each other through an embed and an
    array; an unused integer. *)
Definition ex_heap : heap :=
  [ OGraph [2; 1] [3] [];
    OClass (s_ "Empty") [3];
    OClass (s_ "Another") [4; 5];
    OEmbed (s_ "Holder") [4];
    OArray 1;
    OPrim PDate;
    OPrim PInteger ].

Example ex_wf : heap_wf ex_heap /\ graph_is_root ex_heap /\ names_unique ex_heap.
Proof.
  assert (HE : forall a b, edge ex_heap a b -> 1 <= b <= 5).
  { intros a b H. destruct H as [a v H|a v H|a n ps b H HI|a n ps b H HI|a cs es ps b H HI|a cs es ps b H HI|a cs es ps b H HI];
      do 7 (destruct a as [|a]; [cbn in H; try discriminate; injection H; intros; subst; cbn in *; intuition lia|]);
      destruct a; discriminate. }
  split; [|split].
  - intros a b H. apply HE in H. cbn. lia.
  - intros a b H cs es ps E. apply HE in H.
    do 6 (destruct b as [|b]; [cbn in E; try discriminate; lia|]). lia.
  - intros a b n ps qs E1 E2.
    do 7 (destruct a as [|a]; [cbn in E1; try discriminate; injection E1; intros; subst;
      do 7 (destruct b as [|b]; [cbn in E2; try discriminate; try reflexivity|]); destruct b; discriminate|]).
    destruct a; discriminate.
Qed.
Example ex_needs :
  needs_type ex_heap (KPrim PDate) 16 0 = Some true /\
  needs_type ex_heap (KPrim PDate) 16 1 = Some false /\
  needs_type ex_heap (KPrim PInteger) 16 0 = Some false /\
  references ex_heap 8 [3] = Some [1] /\ references ex_heap 8 [2; 4] = Some [2; 1] /\
  value_type ex_heap 3 /\ value_type ex_heap 2 /\ reach ex_heap 2 1.
Proof.
  repeat split; try (cbn; lia); try (intros; cbn; discriminate).
  eapply r_step with 4; [eapply e_class; [reflexivity|left; reflexivity]|].
  eapply r_step with 1; [eapply e_array; reflexivity|constructor].
Qed.

Print Assumptions C28_needs_type.
Print Assumptions C29_references.
Print Assumptions C29_references_nested.
