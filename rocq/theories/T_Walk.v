(** C30, C31: the iteration over the value types of a graph and the enumeration of
    the patterns. *)
From Verif Require Import Base M_Naming M_Schema M_Dec M_Walk S_Walk P_AutoID P_Walk.
From Coq Require Import String List Arith NArith ZArith Bool Lia Permutation.
Import ListNotations.
Open Scope list_scope.

(** [iterate_over_types] yields exactly the value types with their references. *)
Theorem C31_iterate_exact g t ref : In (t, ref) (iterate_over_types g) <-> value_type g t ref.
Proof. apply iterate_spec. Qed.
Print Assumptions C31_iterate_exact.

(** In a graph from the schema parser no reference, and hence no definition, is
    yielded twice. *)
Theorem C31_iterate_once g : parsed_refs g -> NoDup (map snd (iterate_over_types g)).
Proof. apply iterate_refs. Qed.
Print Assumptions C31_iterate_once.

(** The variables with the compiled patterns: the assertion holds, there is one
    variable for each pattern in the graph, no two variables have the same name,
    and the variable to which the parsing code refers is the one of the pattern. *)
Theorem C30_patterns_unique_complete g :
  exists decls,
    compile_regexes (enumerate_patterns g) = Some decls /\
    NoDup (map fst decls) /\ NoDup (map snd decls) /\
    (forall p, In p (map snd decls) <-> pattern_of g p) /\
    (forall p, pattern_of g p -> exists v, pattern_variable (enumerate_patterns g) p = Some v /\ In (v, p) decls).
Proof.
  destruct (enumerate_spec g) as (Hk & Hv & Hin).
  destruct (compile_spec _ Hk Hv) as (decls & Hc & HP). exists decls. split; [exact Hc|].
  set (m := enumerate_patterns g) in *.
  assert (Hs : map snd (map (fun e : str * nat => (s_ "pattern" ++ dec_nat (snd e), fst e)) m) = keys m).
  { rewrite map_map. reflexivity. }
  assert (Hf : NoDup (map fst (map (fun e : str * nat => (s_ "pattern" ++ dec_nat (snd e), fst e)) m))).
  { rewrite map_map. cbn [fst]. rewrite <- (map_map snd (fun i => s_ "pattern" ++ dec_nat i)).
    apply FinFun.Injective_map_NoDup; [|exact Hv]. intros i j E. apply app_inv_head in E. now apply dec_nat_inj. }
  split; [|split; [|split]].
  - eapply Permutation_NoDup; [apply Permutation_map, Permutation_sym, HP|exact Hf].
  - eapply Permutation_NoDup; [apply Permutation_map, Permutation_sym, HP|]. now rewrite Hs.
  - intros p. rewrite <- Hin, <- Hs. split; apply Permutation_in; [|apply Permutation_sym]; now apply Permutation_map.
  - intros p Hp. apply Hin in Hp. apply lookup_key_Some in Hp as [i Hi].
    exists (s_ "pattern" ++ dec_nat i). unfold pattern_variable. rewrite Hi. split; [reflexivity|].
    eapply Permutation_in; [apply Permutation_sym, HP|]. apply lookup_In in Hi.
    apply in_map_iff. exists (p, i). auto.
Qed.
Print Assumptions C30_patterns_unique_complete.

(** A graph with the same pattern twice, one inside an array of maps, and a
    property named as the list of classes. *)
Definition demo : graph :=
  Graph (s_ "G") (s_ "") (s_ "#")
    [Cls (s_ "A") (s_ "As") (s_ "") (s_ "#/classes/0") (Some (s_ "[a-z]+"))
       [Prop_ (s_ "#/classes/0/x") (s_ "x") (TArray (TMap (TStr (Some (s_ "b")))) None None) (s_ "") (s_ "x") false]]
    [Embed (s_ "E") (s_ "") (s_ "#/embeds/0")
       [Prop_ (s_ "#/embeds/0/y") (s_ "y") (TPath (Some (s_ "[a-z]+"))) (s_ "") (s_ "y") true]]
    [Prop_ (s_ "#/classes") (s_ "classes") (TMap TBool) (s_ "") (s_ "classes") false].

Example demo_types :
  map snd (iterate_over_types demo) =
  map s_ ["#/classes/0/x"; "#/classes/0/x/values"; "#/classes/0/x/values/values"; "#/embeds/0/y";
          "#/classes"; "#/classes/values"]%string.
Proof. vm_compute. reflexivity. Qed.

Example demo_parsed : parsed_refs demo.
Proof.
  split; [|split].
  - intros [|[|i]] c H; cbn in H; inversion H; subst; reflexivity.
  - intros [|[|i]] c H; cbn in H; inversion H; subst; reflexivity.
  - intros r ps H; inversion H as [c Hc|e He|]; subst.
    + destruct Hc as [<-|[]]. split; [repeat constructor; easy|]. intros p [<-|[]]. intros Hs; cbn in Hs.
      intuition discriminate.
    + destruct He as [<-|[]]. split; [repeat constructor; easy|]. intros p [<-|[]]. intros Hs; cbn in Hs.
      intuition discriminate.
    + split; [repeat constructor; easy|]. intros p [<-|[]]. intros Hs; cbn in Hs. intuition discriminate.
Qed.

(** The number of the repeated pattern is the later one. *)
Example demo_patterns :
  compile_regexes (enumerate_patterns demo) =
    Some [(s_ "pattern1", s_ "b"); (s_ "pattern2", s_ "[a-z]+")] /\
  pattern_variable (enumerate_patterns demo) (s_ "[a-z]+") = Some (s_ "pattern2").
Proof. vm_compute. auto. Qed.
