(** Theorems about the generated Go code (C15, C16, C17, C50). *)
From Verif Require Import Base M_Naming M_Errors M_Dec M_Schema M_Strftime M_Duration M_Num M_GoGen S_Conform S_Common S_GoGen P_Common
  P_GoBase P_GoParse P_GoGraph P_GoSafe P_GoSer.
From Coq Require Import String Ascii List Arith NArith ZArith Bool Lia Floats.SpecFloat Permutation.
Import ListNotations.

(** ** C50 *)

(** A float64 is accepted for an integer exactly if it is a whole number in the
    range of int64 and within the bounds, and it is stored exactly.  [cap] is the
    capacity of the fresh error container. *)
Theorem C50_go_integer_exact X G order R b f ref cap :
  (forall x, go_value X G order R (JFloat f) (TInt b) ref (go_errors_new cap) = Done (x, go_errors_new cap) ->
     exists z, x = GInt z /\ float_is f z /\ int64 z /\ in_range b z) /\
  (forall z, float_is f z -> int64 z -> in_range b z ->
     go_value X G order R (JFloat f) (TInt b) ref (go_errors_new cap) = Done (GInt z, go_errors_new cap)).
Proof.
  split.
  - intros x H. cbn [go_value] in H. apply integer_sound in H as (f' & z & E & Hx & H1 & H2 & H3).
    injection E as <-. exists z. auto.
  - intros z H1 H2 H3. cbn [go_value]. apply integer_complete; assumption.
Qed.

(** ** C16 *)

Section Theorems.
  Variable X : gext.
  Variable G : graph.
  Hypothesis Hbounds : bounds_exact G.
  Hypothesis Hfields : fields_distinct G.
  Hypothesis Hclasses : classes_distinct G.

  (** Without errors, the value conforms, the target is complete, represents the
      value and satisfies the schema. *)
  Theorem C16_go_parse_sound_partial order v ref cap r es : visits_all order -> json_wf v ->
    go_graph_from X G order v ref (go_errors_new cap) = Done (r, es) -> go_empty es = true ->
    exists l gg, v = JObj l /\ r = Some gg /\ go_conforms X G v /\
                 go_graph_rep X G l gg /\ go_graph_sat X G (go_scalar X) gg.
  Proof.
    intros Ho W H E. apply empty_iff in E.
    assert (C : go_cap es = cap).
    { assert (K : ggrown (go_errors_new cap) es); [|destruct K as [K _]; exact K].
      unfold go_graph_from in H. simpl in H. destruct v as [| | | | | |l]; try (eapply gkeeps_report; exact H).
      revert H. generalize (@go_errors_new gerr cap). intros es0 H. revert H. apply gkeeps_bind; [apply gkeeps_preallocate|].
      intros [R heap] es1 r1 es2 H. destruct (_ && _).
      - injection H as <- <-. apply ggrown_refl.
      - revert H. apply gkeeps_bind; [apply gkeeps_registries; exact Ho|].
        intros [?|]; [|apply gkeeps_ret]. apply gkeeps_bind; [|intros; apply gkeeps_ret].
        apply (gkeeps_properties X _ (gmembers_of X G order R (JObj l))). apply members_of_keep. exact Ho. }
    rewrite C in E. subst es.
    destruct (graph_sound X G order Ho Hbounds Hfields Hclasses cap v ref r W H) as (l & gg & -> & -> & Cf & Rp).
    exists l, gg. split; [reflexivity|]. split; [reflexivity|]. split; [exact Cf|]. split; [exact Rp|]. eapply graph_rep_sat; eauto.
  Qed.

  (** Every conforming value without explicit nulls is accepted. *)
  Theorem C16_go_accepts_conforming_partial order v ref cap : visits_all order -> json_wf v ->
    no_null v -> go_conforms X G v ->
    exists gg, go_graph_from X G order v ref (go_errors_new cap) = Done (Some gg, go_errors_new cap).
  Proof. intros Ho W N C. apply graph_complete; assumption. Qed.

  (** The iteration order of maps does not influence which graph is parsed. *)
  Theorem C16_go_order_irrelevant_partial order order' v ref cap g : visits_all order -> visits_all order' ->
    json_wf v -> no_null v ->
    go_graph_from X G order v ref (go_errors_new cap) = Done (Some g, go_errors_new cap) ->
    exists g', go_graph_from X G order' v ref (go_errors_new cap) = Done (Some g', go_errors_new cap) /\
               go_graph_equal X G g g'.
  Proof.
    intros Ho Ho' W N H.
    destruct (graph_sound X G order Ho Hbounds Hfields Hclasses cap v ref _ W H) as (l & gg & -> & E & Cf & Rp).
    injection E as <-.
    destruct (graph_complete X G order' Ho' Hbounds Hfields cap (JObj l) ref W N Cf) as [g' H'].
    destruct (graph_sound X G order' Ho' Hbounds Hfields Hclasses cap _ ref _ W H') as (l' & gg' & El & E & _ & Rp').
    injection El as <-. injection E as <-. exists g'. split; [exact H'|]. eapply graph_rep_unique; eauto.
  Qed.

  (** ** C15 *)

  (** A container for a single error: never panics, at most one error is kept. *)
  Theorem C15_go_single_error_never_panics_partial order v ref : visits_all order -> resolved G -> json_wf v ->
    exists r es, go_graph_from X G order v ref (go_errors_new 1) = Done (r, es) /\ length (go_values es) <= 1.
  Proof. intros Ho Hr W. apply graph_cap1; assumption. Qed.

  (** Any capacity, if the schema has neither classes nor embeddable structures. *)
  Theorem C15_go_flat_never_panics_partial order v ref cap : visits_all order -> resolved G ->
    g_classes G = [] -> g_embeds G = [] ->
    exists r es, go_graph_from X G order v ref (go_errors_new cap) = Done (r, es).
  Proof. intros Ho Hr Hc He. apply graph_done; assumption. Qed.

  (** Any capacity: the only panic is the one about the non-empty container; no
      nil pointer is ever dereferenced. *)
  Theorem C15_go_only_nonempty_panics_partial order v ref cap p : visits_all order -> resolved G -> json_wf v ->
    go_graph_from X G order v ref (go_errors_new cap) = Panic p -> p = PNonEmptyErrors.
  Proof. intros Ho Hr W. apply graph_only; assumption. Qed.

  (** ** C17 *)

  (** A graph satisfying the schema, with values representable in JSON, is
      serialized; its JSON text is parsed to an equal graph, without errors. *)
  Theorem C17_go_round_trip_partial order gg ref cap : visits_all order -> go_json_distinct G ->
    go_graph_sat X G (go_canon X) gg ->
    exists v w gg', go_ser_graph X G gg = SOk v /\ via_json v = Some w /\
      go_graph_from X G order w ref (go_errors_new cap) = Done (Some gg', go_errors_new cap) /\
      go_graph_equal X G gg gg'.
  Proof.
    intros Ho Hj Hs. destruct (graph_written X G Hj gg Hs) as (v & l & E & V & W & N & C & Rp).
    destruct (graph_complete X G order Ho Hbounds Hfields cap (JObj l) ref W N C) as [gg' H].
    destruct (graph_sound X G order Ho Hbounds Hfields Hclasses cap _ ref _ W H) as (l' & g & El & E' & _ & Rp').
    injection El as <-. injection E' as <-.
    exists v, (JObj l), gg'. do 3 (split; [assumption|]). eapply graph_rep_unique; eauto.
  Qed.
End Theorems.

(** ** A concrete schema *)

Definition gprop (n : str) (t : ty) (o : bool) := Prop_ (s_ "ref") n t [] n o.
Definition f5 : spec_float := S754_finite false 5629499534213120 (-50).
Definition f3 : spec_float := S754_finite false 6755399441055744 (-51).
Fixpoint gprefix (p s : str) : bool :=
  match p, s with
  | [], _ => true
  | a :: p', b :: s' => N.eqb a b && gprefix p' s'
  | _, _ => false
  end.
Definition GX : gext := GExt nat gprefix
  (fun l s => if str_eqb s (s_ "2020") then Some 2020 else None)
  (fun _ _ => s_ "2020")
  (fun s => if str_eqb s (s_ "UTC") then Some (s_ "UTC") else None).
Definition gperson := Cls (s_ "Person") (s_ "Persons") [] (s_ "ref") (Some (s_ "p"))
  [gprop (s_ "name") (TStr (Some (s_ "a"))) false;
   gprop (s_ "friends") (TArray (TClass (s_ "Person")) None (Some 3%Z)) true].
Definition gaddress := Embed (s_ "Address") [] (s_ "ref")
  [gprop (s_ "number") (TInt (Bounds (Some 0%Z) false (Some 10%Z) true)) false;
   gprop (s_ "owner") (TClass (s_ "Person")) true].
Definition GG := Graph (s_ "Demo") [] (s_ "ref") [gperson] [gaddress]
  [gprop (s_ "home") (TEmbed (s_ "Address")) false;
   gprop (s_ "ratio") (TFloat (Bounds (Some 0%Z) true None false)) true;
   gprop (s_ "since") (TDate (s_ "%Y")) true;
   gprop (s_ "zone") TTimeZone false;
   gprop (s_ "wait") TDuration true;
   gprop (s_ "by_year") (TMap (TArray (TClass (s_ "Person")) None None)) true].

Definition gl : list (str * jval) :=
  [(s_ "persons", JObj
     [(s_ "p1", JObj [(s_ "name", JStr (s_ "anna"));
                      (s_ "friends", JArr [JStr (s_ "p2"); JStr (s_ "p1")])]);
      (s_ "p2", JObj [(s_ "name", JStr (s_ "abe"))])]);
   (s_ "home", JObj [(s_ "number", JFloat f3); (s_ "owner", JStr (s_ "p2"))]);
   (s_ "ratio", JFloat f5);
   (s_ "since", JStr (s_ "2020"));
   (s_ "zone", JStr (s_ "UTC"));
   (s_ "wait", JStr (s_ "PT1S"));
   (s_ "by_year", JObj [(s_ "1999", JArr [JStr (s_ "p2")])])].

(** Go visits maps in any order: here in the given and in the reverse order. *)
Definition in_order : forall A : Type, nat -> str -> list (str * A) -> list (str * A) := fun _ _ _ l => l.
Definition reversed : forall A : Type, nat -> str -> list (str * A) -> list (str * A) := fun _ _ _ l => rev l.
Example in_order_ok : visits_all in_order.
Proof. intros A n ref l. apply Permutation_refl. Qed.
Example reversed_ok : visits_all reversed.
Proof. intros A n ref l. apply Permutation_rev. Qed.

Definition ggraph : gograph nat :=
  GoGraph
    [(s_ "Home", GStruct [(s_ "Number", GInt 3); (s_ "Owner", GRef 1)]);
     (s_ "Ratio", GFloat f5);
     (s_ "Since", GTime 2020);
     (s_ "Zone", GZone (s_ "UTC"));
     (s_ "Wait", GDuration 1000000000);
     (s_ "ByYear", GMap [(s_ "1999", GList [GRef 1])])]
    [(s_ "Persons", [(s_ "p1", 0); (s_ "p2", 1)])]
    [GObj (s_ "Person") (s_ "p1") [(s_ "Name", GStr (s_ "anna")); (s_ "Friends", GList [GRef 1; GRef 0])];
     GObj (s_ "Person") (s_ "p2") [(s_ "Name", GStr (s_ "abe")); (s_ "Friends", GNil)]].

Example C16_demo :
  go_graph_from GX GG in_order (JObj gl) (s_ "#") (go_errors_new 0) = Done (Some ggraph, go_errors_new 0).
Proof. vm_compute. reflexivity. Qed.

Example GG_fields : fields_distinct GG.
Proof.
  split; [|vm_compute; repeat constructor; simpl; intuition discriminate].
  intros ps H. cbn in H. destruct H as [<-|[<-|[<-|[]]]]; vm_compute;
    repeat constructor; simpl; intuition discriminate.
Qed.
Example GG_classes : classes_distinct GG.
Proof. vm_compute; repeat constructor; simpl; intuition discriminate. Qed.
Example GG_json : go_json_distinct GG.
Proof.
  split; [|vm_compute; repeat constructor; simpl; intuition discriminate].
  intros ps H. cbn in H. destruct H as [<-|[<-|[<-|[]]]]; vm_compute;
    repeat constructor; simpl; intuition discriminate.
Qed.
Example GG_bounds : bounds_exact GG.
Proof.
  intros ps p H1 H2. cbn in H1. destruct H1 as [<-|[<-|[<-|[]]]]; cbn in H2;
    repeat (destruct H2 as [<-|H2]; [cbn; try exact I|]); try destruct H2.
  split; intros m E; [|discriminate]. injection E as <-. exists (S754_zero false). split; reflexivity.
Qed.
Example GG_resolved : resolved GG.
Proof.
  intros ps p H1 H2. cbn in H1. destruct H1 as [<-|[<-|[<-|[]]]]; cbn in H2;
    repeat (destruct H2 as [<-|H2]; [vm_compute; first [exact I|discriminate]|]); destruct H2.
Qed.
Example gl_wf : json_wf (JObj gl).
Proof.
  unfold gl.
  repeat match goal with
         | |- json_wf (JObj _) => apply jwf_obj; [vm_compute; repeat constructor; simpl; intuition discriminate|intros k v Hin]
         | |- json_wf (JArr _) => apply jwf_arr; intros v Hin
         | |- json_wf _ => constructor
         | H : In _ (_ :: _) |- _ => destruct H as [H|H]; [(injection H as <- <-) || subst|]
         | H : In _ [] |- _ => destruct H
         end.
Qed.
Example gl_no_null : no_null (JObj gl).
Proof.
  unfold gl.
  repeat match goal with
         | |- no_null (JObj _) => apply nn_obj; intros k v Hin
         | |- no_null (JArr _) => apply nn_arr; intros v Hin
         | |- no_null _ => constructor
         | H : In _ (_ :: _) |- _ => destruct H as [H|H]; [(injection H as <- <-) || subst|]
         | H : In _ [] |- _ => destruct H
         end.
Qed.
Example gl_conforms : go_conforms GX GG (JObj gl).
Proof.
  destruct (C16_go_parse_sound_partial GX GG GG_bounds GG_fields GG_classes in_order (JObj gl) (s_ "#") 0
    _ _ in_order_ok gl_wf C16_demo eq_refl) as (l & g & E & _ & C & _). exact C.
Qed.
(** In the other order the instances have other addresses. *)
Example C16_demo_reversed : exists g',
  go_graph_from GX GG reversed (JObj gl) (s_ "#") (go_errors_new 0) = Done (Some g', go_errors_new 0) /\
  gg_heap g' <> gg_heap ggraph /\ go_graph_equal GX GG ggraph g'.
Proof.
  destruct (C16_go_order_irrelevant_partial GX GG GG_bounds GG_fields GG_classes in_order reversed (JObj gl) (s_ "#") 0 ggraph
    in_order_ok reversed_ok gl_wf gl_no_null C16_demo) as (g' & E & Q).
  exists g'. split; [exact E|]. split; [|exact Q]. vm_compute in E. injection E as <-. discriminate.
Qed.

Example ggraph_canon : go_graph_sat GX GG (go_canon GX) ggraph.
Proof.
  assert (Hr : forall a, a < 2 -> gregistered GX GG ggraph (s_ "Person") a).
  { intros [|[|a]] H; [| |lia]; unfold gregistered; exists gperson; eexists; split; [reflexivity| |reflexivity|];
    (split; [reflexivity|]); split; reflexivity. }
  assert (Hm : forall p s, gprefix p s = true -> gmatches GX (Some p) s).
  { intros p s H q E. injection E as <-. exact H. }
  assert (S3 : gsat GX GG (go_canon GX) (gregistered GX GG ggraph) (TInt (Bounds (Some 0%Z) false (Some 10%Z) true)) (GInt 3)).
  { apply gsat_scalar; [reflexivity|]. exists 3%Z. split; [reflexivity|]. split; [split; lia|]. split.
    - exists f3. split; reflexivity.
    - split; intros m E; injection E as <-; simpl; lia. }
  split.
  - split; [reflexivity|]. intros p Hp. cbn in Hp.
    destruct Hp as [<-|[<-|[<-|[<-|[<-|[<-|[]]]]]]]; eexists; (split; [reflexivity|]); right; (split; [discriminate|]).
    + eapply gsat_embed; [reflexivity|reflexivity|]. intros p Hp. cbn in Hp.
      destruct Hp as [<-|[<-|[]]]; eexists; (split; [reflexivity|]); right; (split; [discriminate|]).
      * exact S3.
      * apply gsat_ref. apply Hr. lia.
    + apply gsat_scalar; [reflexivity|]. exists f5. split; [reflexivity|]. split; [reflexivity|].
      split; intros m E; [|discriminate]. injection E as <-. left. reflexivity.
    + apply gsat_scalar; [reflexivity|]. exists 2020. split; reflexivity.
    + apply gsat_scalar; [reflexivity|]. exists (s_ "UTC"). split; reflexivity.
    + apply gsat_scalar; [reflexivity|]. exists 1000000000%Z. split; [reflexivity|lia].
    + apply gsat_map; [vm_compute; repeat constructor; simpl; tauto|]. intros k x [E|[]]. injection E as <- <-.
      apply gsat_array; [split; intros; discriminate|]. intros x [<-|[]]. apply gsat_ref. apply Hr. lia.
  - intros c [<-|[]]. split; [vm_compute; repeat constructor; simpl; intuition discriminate|].
    intros id a Ha. cbn in Ha. destruct Ha as [E|[E|[]]]; injection E as <- <-; (split; [apply Hm; reflexivity|]);
      eexists; (split; [reflexivity|]); (split; [reflexivity|]); (split; [reflexivity|]).
    + split; [reflexivity|]. intros p Hp. cbn in Hp.
      destruct Hp as [<-|[<-|[]]]; eexists; (split; [reflexivity|]); right; (split; [discriminate|]).
      * apply gsat_scalar; [reflexivity|]. eexists. split; [reflexivity|apply Hm; reflexivity].
      * apply gsat_array; [split; intros m E; [discriminate|injection E as <-; simpl; lia]|].
        intros x [<-|[<-|[]]]; apply gsat_ref; apply Hr; lia.
    + split; [reflexivity|]. intros p Hp. cbn in Hp.
      destruct Hp as [<-|[<-|[]]]; eexists; (split; [reflexivity|]).
      * right. split; [discriminate|]. apply gsat_scalar; [reflexivity|].
        eexists. split; [reflexivity|apply Hm; reflexivity].
      * left. split; reflexivity.
Qed.
Example C17_demo : exists v,
  go_ser_graph GX GG ggraph = SOk v /\
  via_json v = Some (JObj (tl gl ++ [hd (s_ "", JNull) gl])).
Proof. eexists. split; vm_compute; reflexivity. Qed.

(** ** Where the generated code violates the properties *)

(** C15: two broken instances and room for both errors: the second instance
    panics. *)
Theorem C15_go_second_error_panics_refuted :
  let v := JObj [(s_ "persons", JObj [(s_ "p1", JObj []); (s_ "p2", JObj [])])] in
  json_wf v /\
  go_graph_from GX GG in_order v (s_ "#") (go_errors_new 0) = Panic PNonEmptyErrors.
Proof.
  split; [|vm_compute; reflexivity].
  repeat match goal with
         | |- json_wf (JObj _) => apply jwf_obj; [vm_compute; repeat constructor; simpl; intuition discriminate|intros k v Hin]
         | H : In _ (_ :: _) |- _ => destruct H as [H|H]; [(injection H as <- <-) || subst|]
         | H : In _ [] |- _ => destruct H
         end.
Qed.

(** C15: an error in one property and an embedded structure in the next. *)
Theorem C15_go_error_before_embed_panics_refuted :
  let G := Graph (s_ "Demo") [] (s_ "ref") [] [Embed (s_ "Unit") [] (s_ "ref") []]
             [gprop (s_ "a") TBool false; gprop (s_ "b") (TEmbed (s_ "Unit")) false] in
  go_graph_from GX G in_order (JObj [(s_ "a", JNull); (s_ "b", JObj [])]) (s_ "#") (go_errors_new 10)
  = Panic PNonEmptyErrors.
Proof. vm_compute. reflexivity. Qed.

(** C16: an optional property may be null in a conforming value, but is rejected. *)
Theorem C16_go_null_rejected_refuted :
  let G := Graph (s_ "Demo") [] (s_ "ref") [] [] [gprop (s_ "a") TBool true] in
  let v := JObj [(s_ "a", JNull)] in
  go_conforms GX G v /\
  go_graph_from GX G in_order v (s_ "#") (go_errors_new 0) =
  Done (Some (GoGraph [(s_ "A", GZero)] [] []),
        GoErrors 0 [GErr (s_ "#/a") (GExpectedType (s_ "a bool") GTNil)]).
Proof.
  split; [|vm_compute; reflexivity].
  exists [(s_ "a", JNull)]. split; [reflexivity|]. split; [intros c []|].
  intros p [<-|[]]. left. split; [reflexivity|]. right. reflexivity.
Qed.

(** C16: the bound 2^53 + 1 is rounded to 2^53, which is accepted. *)
Theorem C16_go_rounded_bound_refuted :
  let b := Bounds (Some (2 ^ 53 + 1)%Z) false None false in
  let G := Graph (s_ "Demo") [] (s_ "ref") [] [] [gprop (s_ "a") (TFloat b) false] in
  let f := S754_finite false 4503599627370496 1 in
  cmp_float_Z f (2 ^ 53) = Some Eq /\ ~ float_in_range b f /\
  go_graph_from GX G in_order (JObj [(s_ "a", JFloat f)]) (s_ "#") (go_errors_new 0) =
  Done (Some (GoGraph [(s_ "A", GFloat f)] [] []), go_errors_new 0).
Proof.
  split; [reflexivity|]. split; [|vm_compute; reflexivity].
  intros [H _]. destruct (H _ eq_refl) as [C|[_ C]]; vm_compute in C; discriminate.
Qed.

(** C17: an int64 which is not a float64 is changed by writing and reading it. *)
Theorem C17_go_large_integer_refuted :
  let G := Graph (s_ "Demo") [] (s_ "ref") [] [] [gprop (s_ "a") (TInt (Bounds None false None false)) false] in
  let g := GoGraph [(s_ "A", GInt (2 ^ 53 + 1))] [] [] in
  exists v w,
    go_graph_sat GX G (go_scalar GX) g /\ go_ser_graph GX G g = SOk v /\ via_json v = Some w /\
    go_graph_from GX G in_order w (s_ "#") (go_errors_new 0)
    = Done (Some (GoGraph [(s_ "A", GInt (2 ^ 53))] [] []), go_errors_new 0).
Proof.
  exists (JObj [(s_ "a", JInt (2 ^ 53 + 1))]), (JObj [(s_ "a", JFloat (S754_finite false 4503599627370496 1))]).
  split; [|split; [vm_compute; reflexivity|split; vm_compute; reflexivity]].
  split; [|intros c []]. split; [reflexivity|]. intros p [<-|[]]. eexists. split; [reflexivity|].
  right. split; [discriminate|]. apply gsat_scalar; [reflexivity|]. eexists. split; [reflexivity|].
  split; [split; lia|]. split; intros m E; discriminate.
Qed.

(** C17: without going through text, integers are rejected. *)
Theorem C17_go_direct_integer_refuted :
  let G := Graph (s_ "Demo") [] (s_ "ref") [] [] [gprop (s_ "a") (TInt (Bounds None false None false)) false] in
  let g := GoGraph [(s_ "A", GInt 3)] [] [] in
  exists v r e, go_ser_graph GX G g = SOk v /\
    go_graph_from GX G in_order v (s_ "#") (go_errors_new 0) = Done (r, GoErrors 0 [e]).
Proof.
  exists (JObj [(s_ "a", JInt 3)]), (Some (GoGraph [(s_ "A", GZero)] [] [])),
    (GErr (s_ "#/a") (GExpectedType (s_ "a float64") GTInt64)).
  split; vm_compute; reflexivity.
Qed.

Print Assumptions C50_go_integer_exact.
Print Assumptions C16_go_parse_sound_partial.
Print Assumptions C16_go_accepts_conforming_partial.
Print Assumptions C16_go_order_irrelevant_partial.
Print Assumptions C15_go_single_error_never_panics_partial.
Print Assumptions C15_go_flat_never_panics_partial.
Print Assumptions C15_go_only_nonempty_panics_partial.
Print Assumptions C17_go_round_trip_partial.
Print Assumptions C15_go_second_error_panics_refuted.
Print Assumptions C15_go_error_before_embed_panics_refuted.
Print Assumptions C16_go_null_rejected_refuted.
Print Assumptions C16_go_rounded_bound_refuted.
Print Assumptions C17_go_large_integer_refuted.
Print Assumptions C17_go_direct_integer_refuted.
