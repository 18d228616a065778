(** Theorems about the generated C++ code (C18, C19, C21). *)
From Verif Require Import Base M_Naming M_Errors M_Dec M_Schema M_Strftime M_Duration M_Num M_CppTime M_CppGen S_Conform S_Common S_CppGen P_Common
  P_DurText P_CppTime P_CppBase P_CppParse P_CppGraph P_CppSafe P_CppSer.
From Coq Require Import String Ascii List Arith NArith ZArith Bool Lia Floats.SpecFloat Permutation.
Import ListNotations.
Local Open Scope nat_scope.

(** ** C21 *)

(** [tm_to_string] ends in every case, and returns exactly if the format is empty
    or the expansion is not empty and shorter than four times the format; what it
    returns is the expansion.  [max] is the largest size of a string. *)
Theorem C21_cpp_time_text_partial max fmt text :
  tm_to_string max fmt text <> TmFuel /\
  forall s, tm_to_string max fmt text = TmText s <->
    (fmt = [] /\ s = []) \/
    (fmt <> [] /\ s = text /\ 0 < bytes text < 4 * bytes fmt /\
     (4 * N.of_nat (bytes fmt) <= max)%N).
Proof.
  rewrite !bytes_size.
  split; [apply tm_fuel_suffices|]. intros s.
  assert (D : {fmt = []} + {fmt <> []}) by (destruct fmt; [left|right]; congruence).
  destruct D as [->|D].
  { simpl. split; [intros H; injection H as <-; auto|]. intros [[_ ->]|[C _]]; [reflexivity|destruct (C eq_refl)]. }
  assert (E : (0 < utf8_size text < 4 * utf8_size fmt /\ (4 * N.of_nat (utf8_size fmt) <= max)%N) \/
              ~ (0 < utf8_size text < 4 * utf8_size fmt /\ (4 * N.of_nat (utf8_size fmt) <= max)%N)) by lia.
  destruct E as [E|E].
  - rewrite tm_fits by apply E. split.
    + intros H. injection H as <-. right. tauto.
    + intros [[C _]|(_ & -> & _)]; [destruct (D C)|reflexivity].
  - rewrite tm_not_fits by assumption. split; [discriminate|]. intros [[C _]|(_ & _ & C)]; tauto.
Qed.

(** A month with a long name does not fit: the buffer is doubled until there is no
    more memory, and an exception is thrown. *)
Theorem C21_cpp_long_text_refuted max : tm_to_string max (s_ "%B") (s_ "September") = TmThrow.
Proof. apply tm_not_fits; [discriminate|]. intros [[_ H] _]. revert H. vm_compute. lia. Qed.

Example C21_demo :
  tm_to_string (2 ^ 62) (s_ "%d %B %Y") (s_ "30 September 2020") = TmText (s_ "30 September 2020").
Proof. apply tm_fits; [split; vm_compute; lia|vm_compute; discriminate]. Qed.

(** ** C18 *)

Section Theorems.
  Variable X : cext.
  Variable G : graph.
  Hypothesis Hbounds : bounds_exact G.
  Hypothesis Hfields : cfields_distinct G.
  Hypothesis Hclasses : cclasses_distinct G.
  Hypothesis Hlower : names_lower G.

  (** Without errors, the value conforms, the target is complete, represents the
      value and satisfies the schema.  The container has room for an error. *)
  Theorem C18_cpp_parse_sound_partial order v ref cap r es : (0 < cap)%N -> visits_all order -> json_wf v ->
    cpp_graph_from X G order v ref (cpp_errors_new cap) = CDone (r, es) -> cpp_empty es = true ->
    exists l g, v = JObj l /\ r = Some g /\ cpp_conforms X G v /\
                cpp_graph_rep X G l g /\ cpp_graph_sat X G (cpp_scalar X) (fun _ _ => True) g.
  Proof.
    intros Hc Ho W H E. apply empty_iff in E.
    destruct (graph_grown X G order v ref _ r es Ho H) as (C & _). simpl in C. rewrite C in E. subst es.
    destruct (graph_sound X G order Ho Hbounds Hfields Hclasses Hlower cap Hc v ref r W H) as (l & g & -> & -> & Cf & Rp).
    exists l, g. do 4 (split; [auto|]). eapply graph_rep_sat; eauto.
  Qed.

  (** Every conforming value without explicit nulls is accepted. *)
  Theorem C18_cpp_accepts_conforming_partial order v ref cap : (0 < cap)%N -> visits_all order -> json_wf v ->
    no_null v -> cpp_conforms X G v ->
    exists g, cpp_graph_from X G order v ref (cpp_errors_new cap) = CDone (Some g, cpp_errors_new cap).
  Proof. intros Hc Ho W N C. apply graph_complete; assumption. Qed.

  (** The iteration order of objects does not influence which graph is parsed. *)
  Theorem C18_cpp_order_irrelevant_partial order order' v ref cap g : (0 < cap)%N ->
    visits_all order -> visits_all order' -> json_wf v -> no_null v ->
    cpp_graph_from X G order v ref (cpp_errors_new cap) = CDone (Some g, cpp_errors_new cap) ->
    exists g', cpp_graph_from X G order' v ref (cpp_errors_new cap) = CDone (Some g', cpp_errors_new cap) /\
               cpp_graph_equal X G g g'.
  Proof.
    intros Hc Ho Ho' W N H.
    destruct (graph_sound X G order Ho Hbounds Hfields Hclasses Hlower cap Hc v ref _ W H) as (l & g0 & -> & E & Cf & Rp).
    injection E as <-.
    destruct (graph_complete X G order' Ho' Hbounds Hfields cap Hc (JObj l) ref W N Cf) as [g' H'].
    destruct (graph_sound X G order' Ho' Hbounds Hfields Hclasses Hlower cap Hc _ ref _ W H') as (l' & g1 & El & E & _ & Rp').
    injection El as <-. injection E as <-. exists g'. split; [exact H'|]. eapply graph_rep_unique; eauto.
  Qed.

  (** The parser returns, unless a text which is out of range for the conversion of
      durations occurs in the value: then the only exception is that of the
      conversion.  The parsers of the libraries are assumed not to throw. *)
  Theorem C18_cpp_throws_only_duration_partial order v ref cap : (0 < cap)%N -> visits_all order ->
    resolved G -> json_wf v ->
    (no_throw X v -> exists r es, cpp_graph_from X G order v ref (cpp_errors_new cap) = CDone (r, es)) /\
    forall e, cpp_graph_from X G order v ref (cpp_errors_new cap) = CThrown e -> e = XDuration /\ ~ no_throw X v.
  Proof.
    intros Hc Ho Hr W.
    assert (K : forall e, cpp_graph_from X G order v ref (cpp_errors_new cap) = CThrown e -> e = XDuration /\ ~ no_throw X v).
    { intros e H. eapply graph_only; eauto. }
    split; [|exact K]. intros Hn. destruct (cpp_graph_from X G order v ref (cpp_errors_new cap)) as [[r es]|e].
    - eauto.
    - destruct (K e eq_refl) as [_ C]. destruct (C Hn).
  Qed.

  (** Never more errors than the capacity. *)
  Theorem C18_cpp_errors_bounded order v ref cap r es : visits_all order ->
    cpp_graph_from X G order v ref (cpp_errors_new cap) = CDone (r, es) ->
    cpp_cap es = cap /\ (N.of_nat (length (cpp_values es)) <= cap)%N.
  Proof.
    intros Ho H. destruct (graph_grown X G order v ref _ r es Ho H) as (C & _ & B). simpl in C.
    split; [exact C|]. rewrite <- C. apply B. unfold cbounded. simpl. lia.
  Qed.

  (** ** C19 *)

  (** A graph satisfying the schema with representable values, in which the graph,
      every instance and every embedded structure has some property set, is
      serialized and parsed to an equal graph, without errors. *)
  Theorem C19_cpp_round_trip_partial order g ref cap : (0 < cap)%N -> visits_all order -> cpp_json_distinct G -> registries_visible G ->
    flag_cleared X -> cpp_graph_sat X G (cpp_canon X) (shown X) g -> graph_shown X G g ->
    exists v g', cpp_ser_graph X G g = CDone v /\
      cpp_graph_from X G order v ref (cpp_errors_new cap) = CDone (Some g', cpp_errors_new cap) /\
      cpp_graph_equal X G g g'.
  Proof.
    intros Hc Ho Hj Hv Hf Hs Hg. destruct (graph_written X G Hj Hv Hf g Hs Hg) as (l & E & W & N & C & Rp).
    destruct (graph_complete X G order Ho Hbounds Hfields cap Hc (JObj l) ref W N C) as [g' H].
    destruct (graph_sound X G order Ho Hbounds Hfields Hclasses Hlower cap Hc _ ref _ W H) as (l' & g1 & El & E' & _ & Rp').
    injection El as <-. injection E' as <-.
    exists (JObj l), g'. do 2 (split; [assumption|]). eapply graph_rep_unique; eauto.
  Qed.
End Theorems.

(** ** A concrete schema *)

Definition cprop (n : str) (t : ty) (o : bool) := Prop_ (s_ "ref") n t [] n o.
Definition f5 : spec_float := S754_finite false 5629499534213120 (-50).
Definition f3 : spec_float := S754_finite false 6755399441055744 (-51).
Fixpoint cprefix (p s : str) : bool :=
  match p, s with
  | [], _ => true
  | a :: p', b :: s' => N.eqb a b && cprefix p' s'
  | _, _ => false
  end.
Definition CX : cext := CExt false nat cprefix
  (fun f s => if cprefix (s_ "2020") s then Some (2020, skipn 4 s) else None)
  (fun _ _ => s_ "2020")
  (fun _ _ _ => None) (fun _ _ _ => []) (fun _ => None) (fun _ => false) (2 ^ 62).
(** The same with date.h *)
Definition DX : cext := CExt true nat cprefix
  (fun _ _ => None) (fun _ _ => [])
  (fun k f s => if cprefix (s_ "2020") s then Some (2020, skipn 4 s) else None)
  (fun _ _ _ => s_ "2020")
  (fun s => if str_eqb s (s_ "UTC") then Some (s_ "UTC") else None) (fun _ => false) (2 ^ 62).
Definition cperson := Cls (s_ "Person") (s_ "Persons") [] (s_ "ref") (Some (s_ "p"))
  [cprop (s_ "name") (TStr (Some (s_ "a"))) false;
   cprop (s_ "friends") (TArray (TClass (s_ "Person")) None (Some 3%Z)) true].
Definition caddress := Embed (s_ "Address") [] (s_ "ref")
  [cprop (s_ "number") (TInt (Bounds (Some 0%Z) false (Some 10%Z) true)) false;
   cprop (s_ "owner") (TClass (s_ "Person")) true].
Definition CG := Graph (s_ "Demo") [] (s_ "ref") [cperson] [caddress]
  [cprop (s_ "home") (TEmbed (s_ "Address")) false;
   cprop (s_ "ratio") (TFloat (Bounds (Some 0%Z) true None false)) true;
   cprop (s_ "since") (TDate (s_ "%Y")) true;
   cprop (s_ "zone") TTimeZone false;
   cprop (s_ "wait") TDuration true;
   cprop (s_ "by_year") (TMap (TArray (TClass (s_ "Person")) None None)) true].

Definition gl : list (str * jval) :=
  [(s_ "persons", JObj
     [(s_ "p1", JObj [(s_ "name", JStr (s_ "anna"));
                      (s_ "friends", JArr [JStr (s_ "p2"); JStr (s_ "p1")])]);
      (s_ "p2", JObj [(s_ "name", JStr (s_ "abe"))])]);
   (s_ "home", JObj [(s_ "number", JFloat f3); (s_ "owner", JStr (s_ "p2"))]);
   (s_ "ratio", JFloat f5);
   (s_ "since", JStr (s_ "2020"));
   (s_ "zone", JStr (s_ "UTC"));
   (s_ "wait", JStr (s_ "PT1S"));
   (s_ "by_year", JObj [(s_ "1999", JArr [JStr (s_ "p2")])])].

(** Objects are visited in the given and in the reverse order. *)
Definition in_order : forall A : Type, nat -> str -> list (str * A) -> list (str * A) := fun _ _ _ l => l.
Definition reversed : forall A : Type, nat -> str -> list (str * A) -> list (str * A) := fun _ _ _ l => rev l.
Example in_order_ok : visits_all in_order.
Proof. intros A n ref l. apply Permutation_refl. Qed.
Example reversed_ok : visits_all reversed.
Proof. intros A n ref l. apply Permutation_rev. Qed.

Definition dgraph : cgraph nat :=
  CGraph
    [(s_ "home", CStruct [(s_ "number", CInt 3); (s_ "owner", CRef 1)]);
     (s_ "ratio", CFloat f5);
     (s_ "since", CTime 2020);
     (s_ "zone", CZone (s_ "UTC"));
     (s_ "wait", CDuration 1000000000);
     (s_ "by_year", CMap [(s_ "1999", CList [CRef 1])])]
    [(s_ "persons", [(s_ "p1", 0); (s_ "p2", 1)])]
    [CObj (s_ "Person") (s_ "p1") [(s_ "name", CStr (s_ "anna")); (s_ "friends", CList [CRef 1; CRef 0])];
     CObj (s_ "Person") (s_ "p2") [(s_ "name", CStr (s_ "abe")); (s_ "friends", CNil)]].

Example C18_demo :
  cpp_graph_from CX CG in_order (JObj gl) (s_ "#") (cpp_errors_new 10) = CDone (Some dgraph, cpp_errors_new 10).
Proof. vm_compute. reflexivity. Qed.

Example CG_fields : cfields_distinct CG.
Proof.
  split; [|vm_compute; repeat constructor; simpl; intuition discriminate].
  intros ps H. cbn in H. destruct H as [<-|[<-|[<-|[]]]]; vm_compute;
    repeat constructor; simpl; intuition discriminate.
Qed.
Example CG_classes : cclasses_distinct CG.
Proof. vm_compute; repeat constructor; simpl; intuition discriminate. Qed.
Example CG_json : cpp_json_distinct CG.
Proof.
  split; [|vm_compute; repeat constructor; simpl; intuition discriminate].
  intros ps H. cbn in H. destruct H as [<-|[<-|[<-|[]]]]; vm_compute;
    repeat constructor; simpl; intuition discriminate.
Qed.
Example CG_visible : registries_visible CG.
Proof. intros c [<-|[]]. vm_compute. discriminate. Qed.
Example CG_bounds : bounds_exact CG.
Proof.
  intros ps p H1 H2. cbn in H1. destruct H1 as [<-|[<-|[<-|[]]]]; cbn in H2;
    repeat (destruct H2 as [<-|H2]; [cbn; try exact I|]); try destruct H2.
  split; intros m E; [|discriminate]. injection E as <-. exists (S754_zero false). split; reflexivity.
Qed.
Example CG_resolved : resolved CG.
Proof.
  intros ps p H1 H2. cbn in H1. destruct H1 as [<-|[<-|[<-|[]]]]; cbn in H2;
    repeat (destruct H2 as [<-|H2]; [vm_compute; first [exact I|discriminate]|]); destruct H2.
Qed.
Example CG_lower : names_lower CG.
Proof.
  intros ps p H1 H2. cbn in H1. destruct H1 as [<-|[<-|[<-|[]]]]; cbn in H2;
    repeat (destruct H2 as [<-|H2]; [vm_compute; reflexivity|]); destruct H2.
Qed.
Example CX_flag : flag_cleared CX.
Proof. intros s. reflexivity. Qed.
Example gl_wf : json_wf (JObj gl).
Proof.
  unfold gl.
  repeat match goal with
         | |- json_wf (JObj _) => apply jwf_obj; [vm_compute; repeat constructor; simpl; intuition discriminate|intros k v Hin]
         | |- json_wf (JArr _) => apply jwf_arr; intros v Hin
         | |- json_wf _ => constructor
         | H : In _ (_ :: _) |- _ => destruct H as [H|H]; [(injection H as <- <-) || subst|]
         | H : In _ [] |- _ => destruct H
         end.
Qed.
Example gl_no_null : no_null (JObj gl).
Proof.
  unfold gl.
  repeat match goal with
         | |- no_null (JObj _) => apply nn_obj; intros k v Hin
         | |- no_null (JArr _) => apply nn_arr; intros v Hin
         | |- no_null _ => constructor
         | H : In _ (_ :: _) |- _ => destruct H as [H|H]; [(injection H as <- <-) || subst|]
         | H : In _ [] |- _ => destruct H
         end.
Qed.
Example gl_no_throw : no_throw CX (JObj gl).
Proof.
  unfold gl.
  repeat match goal with
         | |- no_throw _ (JObj _) => apply nt_obj; intros k v Hin
         | |- no_throw _ (JArr _) => apply nt_arr; intros v Hin
         | |- no_throw _ (JStr _) => apply nt_str; vm_compute; discriminate
         | |- no_throw _ _ => constructor
         | H : In _ (_ :: _) |- _ => destruct H as [H|H]; [(injection H as <- <-) || subst|]
         | H : In _ [] |- _ => destruct H
         end.
Qed.
Example gl_conforms : cpp_conforms CX CG (JObj gl).
Proof.
  destruct (C18_cpp_parse_sound_partial CX CG CG_bounds CG_fields CG_classes CG_lower in_order (JObj gl) (s_ "#") 10
    _ _ eq_refl in_order_ok gl_wf C18_demo eq_refl) as (l & g & E & _ & C & _). exact C.
Qed.
(** In the other order the instances have other addresses. *)
Example C18_demo_reversed : exists g',
  cpp_graph_from CX CG reversed (JObj gl) (s_ "#") (cpp_errors_new 10) = CDone (Some g', cpp_errors_new 10) /\
  cg_heap g' <> cg_heap dgraph /\ cpp_graph_equal CX CG dgraph g'.
Proof.
  destruct (C18_cpp_order_irrelevant_partial CX CG CG_bounds CG_fields CG_classes CG_lower in_order reversed (JObj gl) (s_ "#") 10 dgraph
    eq_refl in_order_ok reversed_ok gl_wf gl_no_null C18_demo) as (g' & E & Q).
  exists g'. split; [exact E|]. split; [|exact Q]. vm_compute in E. injection E as <-. discriminate.
Qed.

Example dgraph_canon : cpp_graph_sat CX CG (cpp_canon CX) (shown CX) dgraph.
Proof.
  assert (Hr : forall a, a < 2 -> cregistered CX CG dgraph (s_ "Person") a).
  { intros [|[|a]] H; [| |lia]; unfold cregistered; exists cperson; eexists; split; [reflexivity| |reflexivity|];
    (split; [reflexivity|]); split; reflexivity. }
  assert (Hm : forall p s, cprefix p s = true -> cmatches CX (Some p) s).
  { intros p s H q E. injection E as <-. exact H. }
  assert (S3 : csat CX CG (cpp_canon CX) (cregistered CX CG dgraph) (shown CX) (TInt (Bounds (Some 0%Z) false (Some 10%Z) true)) (CInt 3)).
  { apply csat_scalar; [reflexivity|]. exists 3%Z. split; [reflexivity|]. split; [split; lia|].
    split; intros m E; injection E as <-; simpl; lia. }
  split.
  - split; [reflexivity|]. intros p Hp. cbn in Hp.
    destruct Hp as [<-|[<-|[<-|[<-|[<-|[<-|[]]]]]]]; eexists; (split; [reflexivity|]); right; (split; [discriminate|]).
    + eapply csat_embed; [reflexivity|reflexivity| |].
      2: { right. eexists. exists (CInt 3). split; [left; reflexivity|]. split; [reflexivity|discriminate]. }
      intros p Hp. cbn in Hp.
      destruct Hp as [<-|[<-|[]]]; eexists; (split; [reflexivity|]); right; (split; [discriminate|]).
      * exact S3.
      * apply csat_ref. apply Hr. lia.
    + apply csat_scalar; [reflexivity|]. exists f5. split; [reflexivity|].
      split; intros m E; [|discriminate]. injection E as <-. left. reflexivity.
    + apply csat_scalar; [reflexivity|]. exists 2020. split; [reflexivity|].
      split; [|exists (s_ "2020"); split; [apply up_to_nul_c_str; reflexivity | reflexivity]].
      right. right. split; [split; vm_compute; lia|vm_compute; discriminate].
    + apply csat_scalar; [reflexivity|]. exists (s_ "UTC"). split; reflexivity.
    + apply csat_scalar; [reflexivity|]. exists 1000000000%Z. split; [reflexivity|lia].
    + apply csat_map; [vm_compute; repeat constructor; simpl; tauto|]. intros k x [E|[]]. injection E as <- <-.
      apply csat_array; [split; intros; discriminate|]. intros x [<-|[]]. apply csat_ref. apply Hr. lia.
  - intros c [<-|[]]. split; [vm_compute; repeat constructor; simpl; intuition discriminate|].
    intros id a Ha. cbn in Ha. destruct Ha as [E|[E|[]]]; injection E as <- <-; (split; [apply Hm; reflexivity|]);
      eexists; (split; [reflexivity|]); (split; [reflexivity|]); (split; [reflexivity|]);
      (split; [|right; eexists; eexists; split; [left; reflexivity|]; split; [reflexivity|discriminate]]).
    + split; [reflexivity|]. intros p Hp. cbn in Hp.
      destruct Hp as [<-|[<-|[]]]; eexists; (split; [reflexivity|]); right; (split; [discriminate|]).
      * apply csat_scalar; [reflexivity|]. eexists. split; [reflexivity|apply Hm; reflexivity].
      * apply csat_array; [split; intros m E; [discriminate|injection E as <-; simpl; lia]|].
        intros x [<-|[<-|[]]]; apply csat_ref; apply Hr; lia.
    + split; [reflexivity|]. intros p Hp. cbn in Hp.
      destruct Hp as [<-|[<-|[]]]; eexists; (split; [reflexivity|]).
      * right. split; [discriminate|]. apply csat_scalar; [reflexivity|].
        eexists. split; [reflexivity|apply Hm; reflexivity].
      * left. split; reflexivity.
Qed.
Example dgraph_shown : graph_shown CX CG dgraph.
Proof. right. right. exists cperson. split; [left; reflexivity|discriminate]. Qed.
Example C19_demo :
  cpp_ser_graph CX CG dgraph = CDone (JObj
    [(s_ "home", JObj [(s_ "number", JInt 3); (s_ "owner", JStr (s_ "p2"))]);
     (s_ "ratio", JFloat f5);
     (s_ "since", JStr (s_ "2020"));
     (s_ "zone", JStr (s_ "UTC"));
     (s_ "wait", JStr (s_ "PT1S"));
     (s_ "by_year", JObj [(s_ "1999", JArr [JStr (s_ "p2")])]);
     (s_ "persons", JObj
       [(s_ "p1", JObj [(s_ "name", JStr (s_ "anna"));
                        (s_ "friends", JArr [JStr (s_ "p2"); JStr (s_ "p1")])]);
        (s_ "p2", JObj [(s_ "name", JStr (s_ "abe"))])])]).
Proof. vm_compute. reflexivity. Qed.

(** ** Where the generated code violates the properties *)

(** C18: a container without room for errors accepts everything. *)
Theorem C18_cpp_no_capacity_refuted X G order ref :
  cpp_graph_from X G order JNull ref (cpp_errors_new 0) = CDone (None, cpp_errors_new 0) /\
  ~ cpp_conforms X G JNull.
Proof. split; [reflexivity|]. intros (l & C & _). discriminate. Qed.

(** C18: and an identifier which does not match lets [std::map::at] throw. *)
Theorem C18_cpp_no_capacity_throws_refuted :
  cpp_graph_from CX CG in_order (JObj [(s_ "persons", JObj [(s_ "x", JObj [])])]) (s_ "#") (cpp_errors_new 0)
  = CThrown XOutOfRange.
Proof. vm_compute. reflexivity. Qed.

(** C18: an optional property may be null in a conforming value, but is rejected. *)
Theorem C18_cpp_null_rejected_refuted :
  let G := Graph (s_ "Demo") [] (s_ "ref") [] [] [cprop (s_ "a") TBool true] in
  let v := JObj [(s_ "a", JNull)] in
  cpp_conforms CX G v /\
  cpp_graph_from CX G in_order v (s_ "#") (cpp_errors_new 10) =
  CDone (Some (CGraph [(s_ "a", CZero)] [] []),
         CppErrors 10 [CErr (s_ "#/a") (CExpectedType (s_ "a bool") CTNull)]).
Proof.
  split; [|vm_compute; reflexivity].
  exists [(s_ "a", JNull)]. split; [reflexivity|]. split; [intros c []|].
  intros p [<-|[]]. left. split; [reflexivity|]. right. reflexivity.
Qed.

(** C18: the bound 2^53 + 1 is rounded to 2^53, which is accepted. *)
Theorem C18_cpp_rounded_bound_refuted :
  let b := Bounds (Some (2 ^ 53 + 1)%Z) false None false in
  let G := Graph (s_ "Demo") [] (s_ "ref") [] [] [cprop (s_ "a") (TFloat b) false] in
  let f := S754_finite false 4503599627370496 1 in
  cmp_float_Z f (2 ^ 53) = Some Eq /\ ~ float_in_range b f /\
  cpp_graph_from CX G in_order (JObj [(s_ "a", JFloat f)]) (s_ "#") (cpp_errors_new 10) =
  CDone (Some (CGraph [(s_ "a", CFloat f)] [] []), cpp_errors_new 10).
Proof.
  split; [reflexivity|]. split; [|vm_compute; reflexivity].
  intros [H _]. destruct (H _ eq_refl) as [C|[_ C]]; vm_compute in C; discriminate.
Qed.

(** C18: with date.h, text after the date is ignored. *)
Theorem C18_cpp_trailing_text_refuted :
  let G := Graph (s_ "Demo") [] (s_ "ref") [] [] [cprop (s_ "a") (TDate (s_ "%Y")) false] in
  cpp_graph_from DX G in_order (JObj [(s_ "a", JStr (s_ "2020 or so"))]) (s_ "#") (cpp_errors_new 10)
  = CDone (Some (CGraph [(s_ "a", CTime 2020)] [] []), cpp_errors_new 10).
Proof. vm_compute. reflexivity. Qed.

(** C18: with ctime, text after a NUL is ignored, whatever the library. *)
Theorem C18_cpp_text_after_nul_refuted X G order R k f s t rest ref cap :
  cx_date_h X = false -> ~ In 0%N s -> cx_strptime X f s = Some (t, []) ->
  cpp_value X G order R (JStr (s ++ 0%N :: rest))
    (match k with KDate => TDate f | KTime => TTime f | KDatetime => TDatetime f end) ref (cpp_errors_new cap)
  = CDone (CTime t, cpp_errors_new cap).
Proof.
  intros Hd Hs Ht.
  assert (E : c_str (s ++ 0%N :: rest) = s).
  { clear Ht. induction s as [|c s IH]; [reflexivity|]. simpl.
    destruct (N.eqb_spec c 0); [destruct Hs; left; congruence|]. rewrite IH; [reflexivity|]. intros C. apply Hs. right. exact C. }
  destruct k; simpl; unfold cpp_date_time; rewrite Hd, E, Ht; reflexivity.
Qed.

(** C18: an exception for a duration which is too long. *)
Theorem C18_cpp_duration_throws_refuted :
  let G := Graph (s_ "Demo") [] (s_ "ref") [] [] [cprop (s_ "a") TDuration false] in
  cpp_graph_from CX G in_order (JObj [(s_ "a", JStr (s_ "PT9223372036854775808S"))]) (s_ "#") (cpp_errors_new 10)
  = CThrown XDuration.
Proof. vm_compute. reflexivity. Qed.

(** C18: if the uninitialized flag happens to be set, no duration is accepted. *)
Theorem C18_cpp_uninitialized_flag_refuted X G order R s ref cap : (0 < cap)%N -> cx_flag X s = true ->
  forall x, cpp_value X G order R (JStr s) TDuration ref (cpp_errors_new cap) <> CDone (x, cpp_errors_new cap).
Proof.
  intros Hc Hf x H. simpl in H. unfold cpp_duration in H. rewrite Hf in H.
  destruct (cpp_dur_from true s) as [d| |] eqn:E; [|eapply creport_clean; [exact Hc|exact H]|discriminate].
  exact (cpp_dur_from_true s d E).
Qed.

(** C19: an instance without set properties is written as null, which is rejected. *)
Theorem C19_cpp_unset_optionals_refuted :
  let G := Graph (s_ "Demo") [] (s_ "ref") [Cls (s_ "Person") (s_ "Persons") [] (s_ "ref") None [cprop (s_ "name") (TStr None) true]] [] [] in
  let g := CGraph [] [(s_ "persons", [(s_ "p", 0)])] [CObj (s_ "Person") (s_ "p") [(s_ "name", CNil)]] in
  cpp_graph_sat CX G (cpp_canon CX) (fun _ _ => True) g /\
  cpp_ser_graph CX G g = CDone (JObj [(s_ "persons", JObj [(s_ "p", JNull)])]) /\
  cpp_graph_from CX G in_order (JObj [(s_ "persons", JObj [(s_ "p", JNull)])]) (s_ "#") (cpp_errors_new 10) =
  CDone (Some g, CppErrors 10 [CErr (s_ "#/persons/p") (CExpectedType (s_ "an object") CTNull)]).
Proof.
  split; [|split; vm_compute; reflexivity].
  split; [split; [reflexivity|intros p []]|]. intros c [<-|[]]. split; [vm_compute; repeat constructor; simpl; tauto|].
  intros id a [E|[]]. injection E as <- <-. split; [intros q E; discriminate|].
  eexists. do 3 (split; [reflexivity|]). split; [|exact I]. split; [reflexivity|].
  intros p [<-|[]]. exists CNil. split; [reflexivity|]. left. split; reflexivity.
Qed.

(** C19: so is a graph without set properties. *)
Theorem C19_cpp_unset_graph_refuted :
  let G := Graph (s_ "Demo") [] (s_ "ref") [] [] [cprop (s_ "a") TBool true] in
  let g := CGraph [(s_ "a", CNil)] [] [] in
  cpp_graph_sat CX G (cpp_canon CX) (fun _ _ => True) g /\
  cpp_ser_graph CX G g = CDone JNull /\
  cpp_graph_from CX G in_order JNull (s_ "#") (cpp_errors_new 10) =
  CDone (None, CppErrors 10 [CErr (s_ "#") (CExpectedType (s_ "an object") CTNull)]).
Proof.
  split; [|split; vm_compute; reflexivity].
  split; [|intros c []]. split; [reflexivity|]. intros p [<-|[]].
  exists CNil. split; [reflexivity|]. left. split; reflexivity.
Qed.

Print Assumptions C21_cpp_time_text_partial.
Print Assumptions C21_cpp_long_text_refuted.
Print Assumptions C18_cpp_parse_sound_partial.
Print Assumptions C18_cpp_accepts_conforming_partial.
Print Assumptions C18_cpp_order_irrelevant_partial.
Print Assumptions C18_cpp_throws_only_duration_partial.
Print Assumptions C18_cpp_errors_bounded.
Print Assumptions C19_cpp_round_trip_partial.
Print Assumptions C18_cpp_no_capacity_refuted.
Print Assumptions C18_cpp_no_capacity_throws_refuted.
Print Assumptions C18_cpp_null_rejected_refuted.
Print Assumptions C18_cpp_rounded_bound_refuted.
Print Assumptions C18_cpp_trailing_text_refuted.
Print Assumptions C18_cpp_text_after_nul_refuted.
Print Assumptions C18_cpp_duration_throws_refuted.
Print Assumptions C18_cpp_uninitialized_flag_refuted.
Print Assumptions C19_cpp_unset_optionals_refuted.
Print Assumptions C19_cpp_unset_graph_refuted.
