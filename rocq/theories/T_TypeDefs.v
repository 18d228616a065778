(** Theorems about the definitions of types in the generated C++ and Go sources
    (properties C49 and C53). *)
From Coq Require Import String List Arith NArith ZArith Bool Lia.
From Verif Require Import Base M_Naming M_Schema M_LangValid M_Validate M_TypeDefs S_Conform S_Validate S_LangValid S_TypeDefs
  P_LangValid P_TypeDefs T_Validate T_LangValid T_EndToEnd T_GoImports.
Import ListNotations.
Open Scope list_scope.

(** * C49: C++ *)

(** Every structure is declared before it is mentioned. *)
Theorem C49_declared v s : document_of s v -> declared_before (header (sc_graph s)).
Proof. intros Hd. apply header_declared. eapply document_resolved; eauto. Qed.

(** The structures are defined before other ones contain them if and only if the
    embeddable structures are listed in that order in the schema. *)
Theorem C49_defined_partial v s :
  document_of s v -> (defined_before (header (sc_graph s)) <-> embeds_in_order (sc_graph s)).
Proof. intros Hd. apply header_defined. eapply document_resolved; eauto. Qed.

(** The order is not established: this document passes the validations. *)
Definition embeds_out_of_order : jval :=
  obj [("name", txt "Shop"); ("description", txt "defines a shop.");
       ("embeds", JArr [
          plain_class "Box" [("properties", obj [("size", property [("type", txt "Size")])])];
          plain_class "Size" [("properties", obj [("width", property [("type", txt "float")])])]])]%string.
Theorem C49_order_refuted : exists v s,
  document_of s v /\ cpp_validate (sc_graph s) = Ok [] /\ ~ defined_before (header (sc_graph s)).
Proof.
  exists embeds_out_of_order.
  destruct (schema_from_mapping (fun _ => true) true embeds_out_of_order []) as [s|e] eqn:E; [|vm_compute in E; discriminate].
  exists s. assert (D : document_of s embeds_out_of_order) by (split; [apply wf_parts; vm_compute; reflexivity|eauto]). split; [exact D|].
  rewrite (C49_defined_partial _ _ D). vm_compute in E. injection E as <-. split; [vm_compute; reflexivity|].
  intros H. destruct (H [] _ _ _ _ eq_refl (or_introl eq_refl) eq_refl).
Qed.

(** * C53: Go *)

Lemma usable_NoDup keywords (convert : str -> str -> Prop) names :
  (forall n i j, convert n i -> convert n j -> i = j) -> usable keywords convert names -> NoDup names.
Proof.
  intros U (ids & H & N & _). induction H as [|n i names ids Hi H IH]; constructor.
  - inversion N as [|? ? N1 N2]; subst. intros Hn. apply N1. clear -U H Hn Hi.
    induction H as [|m j names ids Hj _ IH]; [destruct Hn|]. destruct Hn as [->|Hn]; [left; eapply U; eauto|right; auto].
  - apply IH. now inversion N.
Qed.

(** Go accepts the structures if and only if no embeddable structure requires itself. *)
Theorem C53_finite_partial v s :
  document_of s v -> go_validate (sc_graph s) = Ok [] -> graph_apart upper_camel (sc_graph s) ->
  (go_finite (go_structs (sc_graph s)) <-> forall n, ~ requires (sc_graph s) n n).
Proof.
  intros Hd Hv Ha. apply go_finite_iff; [|eapply document_resolved; eauto].
  assert (H := C37_no_clash_partial _ Ha Hv). destruct H as (H & _). eapply usable_NoDup; [exact upper_unique|exact H].
Qed.

(** In particular, optional properties, arrays and maps may refer back. *)
Definition back_references : jval :=
  obj [("name", txt "Shop"); ("description", txt "defines a shop.");
       ("embeds", JArr [
          plain_class "Box" [("properties", obj [
             ("inside", property [("type", txt "Box"); ("optional", JBool true)]);
             ("others", property [("type", txt "array"); ("values", obj [("type", txt "Box")])]);
             ("size", property [("type", txt "Size")])])];
          plain_class "Size" [("properties", obj [("width", property [("type", txt "float")])])]])]%string.
Example back_references_finite : exists s,
  document_of s back_references /\ go_validate (sc_graph s) = Ok [] /\ graph_apart upper_camel (sc_graph s) /\
  requires (sc_graph s) (s_ "Box") (s_ "Size") /\ go_finite (go_structs (sc_graph s)).
Proof.
  destruct (schema_from_mapping (fun _ => true) true back_references []) as [s|e] eqn:E; [|vm_compute in E; discriminate].
  exists s. assert (D : document_of s back_references) by (split; [apply wf_parts; vm_compute; reflexivity|eauto]). split; [exact D|].
  assert (F := C53_finite_partial _ _ D). vm_compute in E. injection E as E.
  assert (V : go_validate (sc_graph s) = Ok []) by (rewrite <- E; vm_compute; reflexivity). split; [exact V|].
  assert (A : graph_apart upper_camel (sc_graph s)).
  { rewrite <- E. intros n i Hn Hg Hc. apply ucamel_upper in Hg, Hc. vm_compute in Hg. injection Hg as <-.
    vm_compute in Hn. repeat destruct Hn as [<- | Hn]; try contradiction; vm_compute in Hc; discriminate. }
  split; [exact A|].
  assert (R : forall m n, requires (sc_graph s) m n -> n = s_ "Size" /\ m = s_ "Box").
  { rewrite <- E. induction 1 as [e p n He Hp Ho Ep|m n o _ [-> ->] _ [-> HB]]; [|discriminate HB].
    vm_compute in He. repeat destruct He as [<- | He]; try contradiction;
      vm_compute in Hp; repeat destruct Hp as [<- | Hp]; try contradiction; try discriminate. injection Ep as <-. auto. }
  split.
  - assert (Q : forall e p, In e (g_embeds (sc_graph s)) -> In p (e_props e) -> p_optional p = false ->
                e_name e = s_ "Box" -> p_type p = TEmbed (s_ "Size") -> requires (sc_graph s) (s_ "Box") (s_ "Size")).
    { intros e p He Hp Ho <- Ep. econstructor; eauto. }
    eapply Q; [rewrite <- E; now left|right; right; now left|reflexivity..].
  - apply F; [exact V|exact A|]. intros n Hn. apply R in Hn as [-> HB]. discriminate HB.
Qed.

(** A structure which requires itself passes the validations. *)
Definition endless : jval :=
  obj [("name", txt "Shop"); ("description", txt "defines a shop.");
       ("embeds", JArr [
          plain_class "Box" [("properties", obj [("inside", property [("type", txt "Box")])])]])]%string.
Theorem C53_endless_refuted : exists v s,
  document_of s v /\ go_validate (sc_graph s) = Ok [] /\ ~ go_finite (go_structs (sc_graph s)).
Proof.
  exists endless.
  destruct (schema_from_mapping (fun _ => true) true endless []) as [s|e] eqn:E; [|vm_compute in E; discriminate].
  exists s. split; [split; [apply wf_parts; vm_compute; reflexivity|eauto]|].
  vm_compute in E. injection E as <-. split; [vm_compute; reflexivity|].
  intros H. apply (H (s_ "Box")). constructor. eexists. split; [now left|]. now left.
Qed.

Print Assumptions C49_declared.
Print Assumptions C49_defined_partial.
Print Assumptions C49_order_refuted.
Print Assumptions C53_finite_partial.
Print Assumptions C53_endless_refuted.
