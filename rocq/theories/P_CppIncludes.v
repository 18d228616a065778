(** Proofs about the include directives of the generated C++ sources. *)
From Coq Require Import String List Arith NArith ZArith Bool Lia Permutation.
From Verif Require Import Base M_Naming M_Schema M_TypeGraph M_Walk M_GoImports M_CppIncludes S_TypeGraph S_Conform S_Walk S_GoImports S_Imports
  P_Common P_TypeGraph P_Parsed P_GoImports P_PyImports.
Import ListNotations.
Open Scope list_scope.
Local Open Scope nat_scope.

(** * The table *)
Lemma declares_b h e : existsb (fun he => str_eqb h (fst he) && mem e (snd he)) declarations = true <-> declares h e.
Proof.
  rewrite existsb_exists. split.
  - intros ((h' & l) & Hin & H). cbn [fst snd] in H. apply andb_true_iff in H as (E & H). apply str_eqb_eq in E. subst h'. exists l. split; [exact Hin|now apply mem_In].
  - intros (l & Hin & H). exists (h, l). split; [exact Hin|]. cbn [fst snd]. rewrite str_eqb_refl. now apply mem_In.
Qed.
Ltac table := apply declares_b; vm_compute; reflexivity.

Lemma declared_mono l l' e : incl l l' -> declared_in l e -> declared_in l' e.
Proof. intros H (h & Hh & He). exists h. split; [now apply H|exact He]. Qed.

Section Cpp.
  Variables (cpp : cpp_conf) (g : graph).
  Hypothesis HR : resolved g.
  Hypothesis HS : known_cpp_settings cpp.

  Definition is_string t := match t with TStr _ => true | _ => false end.

  Lemma needs_string : graph_needs g (KPrim PString) = true <-> some_type g is_string.
  Proof. apply (needs_some g HR). intros []; cbn; split; congruence. Qed.
  Lemma needs_array : graph_needs g KArray = true <-> some_type g is_array.
  Proof.
    rewrite (some_type_kind g KArray is_array) by (intros []; cbn; split; congruence). apply graph_needs_spec; [exact HR|discriminate..].
  Qed.
  Lemma any_date_some : any_date g = true <-> some_type g moment.
  Proof.
    unfold any_date. cbn [existsb]. rewrite !orb_true_iff, (needs_date g HR), (needs_time g HR), (needs_datetime g HR).
    rewrite (some_or g is_date (fun t => is_time t || is_datetime t) moment) by (intros []; reflexivity).
    rewrite (some_or g is_time is_datetime (fun t => is_time t || is_datetime t)) by reflexivity. intuition discriminate.
  Qed.
  Lemma library : (ctime cpp = true /\ date_h cpp = false) \/ (ctime cpp = false /\ date_h cpp = true).
  Proof. destruct HS as (_ & _ & H). unfold ctime, date_h. destruct H as [<-|[<-|[]]]; [left|right]; split; reflexivity. Qed.

  Definition some_optional : Prop := exists ps p, In ps (composites g) /\ In p ps /\ p_optional p = true.
  Lemma has_optional_some : has_optional g = true <-> some_optional.
  Proof.
    unfold has_optional, some_optional, composites. rewrite !orb_true_iff, !existsb_exists. split.
    - intros [[(p & Hp & H)|(c & Hc & H)]|(e & He & H)].
      + exists (g_props g), p. rewrite !in_app_iff. cbn. auto.
      + apply existsb_exists in H as (p & Hp & H). exists (c_props c), p. rewrite !in_app_iff. split; [left; now apply in_map|]. auto.
      + apply existsb_exists in H as (p & Hp & H). exists (e_props e), p. rewrite !in_app_iff. split; [right; left; now apply in_map|]. auto.
    - intros (ps & p & Hps & Hp & H). rewrite !in_app_iff in Hps. destruct Hps as [Hps|[Hps|[<-|[]]]].
      + apply in_map_iff in Hps as (c & <- & Hc). left; right. exists c. split; [exact Hc|]. apply existsb_exists. eauto.
      + apply in_map_iff in Hps as (e & <- & He). right. exists e. split; [exact He|]. apply existsb_exists. eauto.
      + left; left. eauto.
  Qed.

  (** * What is included *)
  Definition path_reason (h : str) : Prop := declares h (cc_path_as cpp) /\ some_type g is_path.
  Definition optional_reason (h : str) : Prop := declares h (cc_optional_as cpp) /\ some_optional.

  Ltac known_header := let l := fresh in let H := fresh in intros (l & H & _); cbn in H; exact H.

  Lemma table_paths h : In (cc_path_as cpp) (map s_ ["std::filesystem::path"; "boost::filesystem::path"]%string) ->
    declares h (cc_path_as cpp) ->
    cc_path_as cpp = s_ "std::filesystem::path" /\ h = s_ "filesystem" \/
    cc_path_as cpp = s_ "boost::filesystem::path" /\ h = s_ "boost/filesystem/path.hpp".
  Proof.
    intros [E|[E|[]]] (l & Hl & He); rewrite <- E in *.
    - left. split; [reflexivity|].
      assert (H : forallb (fun he => negb (mem (s_ "std::filesystem::path") (snd he)) || str_eqb (fst he) (s_ "filesystem")) declarations = true) by (vm_compute; reflexivity).
      rewrite forallb_forall in H. specialize (H _ Hl). cbn [fst snd] in H. apply mem_In in He. rewrite He in H. now apply str_eqb_eq in H.
    - right. split; [reflexivity|].
      assert (H : forallb (fun he => negb (mem (s_ "boost::filesystem::path") (snd he)) || str_eqb (fst he) (s_ "boost/filesystem/path.hpp")) declarations = true) by (vm_compute; reflexivity).
      rewrite forallb_forall in H. specialize (H _ Hl). cbn [fst snd] in H. apply mem_In in He. rewrite He in H. now apply str_eqb_eq in H.
  Qed.

  Lemma path_ok : exists l m, path_includes cpp g = Ok (l, m) /\ forall h, In h l \/ In h m <-> path_reason h.
  Proof.
    destruct HS as (HP & _). unfold path_includes, path_reason. destruct (graph_needs g (KPrim PPath)) eqn:E.
    - apply (needs_path g HR) in E. assert (T := fun h => table_paths h HP).
      destruct HP as [X|[X|[]]]; rewrite <- X in *.
      + do 2 eexists. split; [reflexivity|]. intros h. split.
        * intros [[<-|[]]|[]]. split; [table|exact E].
        * intros (D & _). apply T in D as [(_ & ->)|(Y & _)]; [left; now left|discriminate Y].
      + do 2 eexists. split; [reflexivity|]. intros h. split.
        * intros [[]|[<-|[]]]. split; [table|exact E].
        * intros (D & _). apply T in D as [(Y & _)|(_ & ->)]; [discriminate Y|right; now left].
    - do 2 eexists. split; [reflexivity|]. intros h. split; [intros [[]|[]]|]. intros (_ & H). apply (needs_path g HR) in H. congruence.
  Qed.

  Lemma table_optionals h : In (cc_optional_as cpp) (map s_ ["boost::optional"; "std::optional"; "std::experimental::optional"]%string) ->
    declares h (cc_optional_as cpp) ->
    cc_optional_as cpp = s_ "boost::optional" /\ h = s_ "boost/optional.hpp" \/
    cc_optional_as cpp = s_ "std::optional" /\ h = s_ "optional" \/
    cc_optional_as cpp = s_ "std::experimental::optional" /\ h = s_ "optional.hpp".
  Proof.
    intros [E|[E|[E|[]]]] (l & Hl & He); rewrite <- E in *.
    - left. split; [reflexivity|].
      assert (H : forallb (fun he => negb (mem (s_ "boost::optional") (snd he)) || str_eqb (fst he) (s_ "boost/optional.hpp")) declarations = true) by (vm_compute; reflexivity).
      rewrite forallb_forall in H. specialize (H _ Hl). cbn [fst snd] in H. apply mem_In in He. rewrite He in H. now apply str_eqb_eq in H.
    - right; left. split; [reflexivity|].
      assert (H : forallb (fun he => negb (mem (s_ "std::optional") (snd he)) || str_eqb (fst he) (s_ "optional")) declarations = true) by (vm_compute; reflexivity).
      rewrite forallb_forall in H. specialize (H _ Hl). cbn [fst snd] in H. apply mem_In in He. rewrite He in H. now apply str_eqb_eq in H.
    - right; right. split; [reflexivity|].
      assert (H : forallb (fun he => negb (mem (s_ "std::experimental::optional") (snd he)) || str_eqb (fst he) (s_ "optional.hpp")) declarations = true) by (vm_compute; reflexivity).
      rewrite forallb_forall in H. specialize (H _ Hl). cbn [fst snd] in H. apply mem_In in He. rewrite He in H. now apply str_eqb_eq in H.
  Qed.

  Lemma optional_ok : exists l m, optional_includes cpp g = Ok (l, m) /\ forall h, In h l \/ In h m <-> optional_reason h.
  Proof.
    destruct HS as (_ & HP & _). unfold optional_includes, optional_reason. destruct (has_optional g) eqn:E.
    - apply has_optional_some in E. assert (T := fun h => table_optionals h HP).
      destruct HP as [X|[X|[X|[]]]]; rewrite <- X in *.
      + do 2 eexists. split; [reflexivity|]. intros h. split.
        * intros [[]|[<-|[]]]. split; [table|exact E].
        * intros (D & _). apply T in D as [(_ & ->)|[(Y & _)|(Y & _)]]; [right; now left|discriminate Y..].
      + do 2 eexists. split; [reflexivity|]. intros h. split.
        * intros [[<-|[]]|[]]. split; [table|exact E].
        * intros (D & _). apply T in D as [(Y & _)|[(_ & ->)|(Y & _)]]; [discriminate Y|left; now left|discriminate Y].
      + do 2 eexists. split; [reflexivity|]. intros h. split.
        * intros [[]|[<-|[]]]. split; [table|exact E].
        * intros (D & _). apply T in D as [(Y & _)|[(Y & _)|(_ & ->)]]; [discriminate Y..|right; now left].
    - do 2 eexists. split; [reflexivity|]. intros h. split; [intros [[]|[]]|]. intros (_ & H). apply has_optional_some in H. congruence.
  Qed.

  Definition date_reason (h : str) : Prop :=
    h = s_ "ctime" /\ ctime cpp = true /\ some_type g moment \/
    h = s_ "string" /\ ctime cpp = true /\ some_type g is_time_zone \/
    h = s_ "chrono" /\ ctime cpp = false /\ some_type g is_time \/
    h = s_ "date/date.h" /\ ctime cpp = false /\ some_type g moment \/
    h = s_ "date/tz.h" /\ ctime cpp = false /\ some_type g is_time_zone.
  Lemma date_ok : exists l m, date_includes cpp g = Ok (l, m) /\ forall h, In h l \/ In h m <-> date_reason h.
  Proof.
    unfold date_includes, date_reason. destruct library as [(C & D)|(C & D)]; rewrite C, ?D.
    - do 2 eexists. split; [reflexivity|]. intros h. rewrite in_app_iff, !In_when, any_date_some, (needs_time_zone g HR). cbn [In].
      intuition (subst; auto; discriminate).
    - do 2 eexists. split; [reflexivity|]. intros h. rewrite in_app_iff, !In_when, any_date_some, (needs_time_zone g HR), (needs_time g HR). cbn [In].
      intuition (subst; auto; discriminate).
  Qed.

  Definition types_reason (h : str) : Prop :=
    h = s_ "cstdint" /\ some_type g is_int \/
    h = s_ "string" /\ (some_type g is_string \/ g_classes g <> []) \/
    path_reason h \/ date_reason h \/
    h = s_ "chrono" /\ some_type g is_duration \/
    h = s_ "vector" /\ some_type g is_array \/
    h = s_ "map" /\ (some_type g is_map \/ g_classes g <> []) \/
    h = s_ "memory" /\ g_classes g <> [] \/
    optional_reason h.
  Lemma classes_nonempty : (match g_classes g with [] => false | _ => true end) = true <-> g_classes g <> [].
  Proof. destruct (g_classes g); split; congruence. Qed.

  Lemma types_ok : exists l, types_includes cpp g = Ok l /\ forall h, In h l <-> types_reason h.
  Proof.
    destruct path_ok as (pl & pm & EP & HP). destruct date_ok as (dl & dm & ED & HD). destruct optional_ok as (ol & om & EO & HO).
    unfold types_includes. rewrite EP. cbn [bind]. rewrite ED. cbn [bind]. rewrite EO. cbn [bind fst snd]. eexists. split; [reflexivity|]. intros h.
    rewrite in_app_iff, !(fun l => proj2 (import_declarations_exact l) h), !in_app_iff, !In_when.
    rewrite (needs_integer g HR), needs_string, (needs_duration g HR), needs_array, (needs_map g HR), classes_nonempty.
    unfold types_reason. rewrite <- HP, <- HD, <- HO. cbn [In]. intuition (subst; auto 10).
  Qed.

  (** * What the types header mentions *)
  Definition repr_own (t : ty) : list str :=
    match t with
    | TArray _ _ _ => [s_ "std::vector"]
    | TMap _ => [s_ "std::map"; s_ "std::string"]
    | _ => repr_entities cpp t
    end.
  Lemma repr_within e t : In e (repr_entities cpp t) <-> within t (fun u => mem e (repr_own u)).
  Proof. apply (within_own (repr_entities cpp) repr_own); [reflexivity..|]. intros []; exact I || reflexivity. Qed.

  Lemma types_entities_In e : In e (types_entities cpp g) <->
    some_type g (fun u => mem e (repr_own u)) \/ (e = cc_optional_as cpp /\ some_optional) \/
    ((e = s_ "std::string" \/ e = s_ "std::map" \/ e = s_ "std::unique_ptr") /\ g_classes g <> []).
  Proof.
    rewrite some_type_within. unfold types_entities, field_entities, some_optional, composites. rewrite !in_app_iff, !in_flat_map.
    assert (F : forall ps, In e (flat_map (fun p => (if p_optional p then [cc_optional_as cpp] else []) ++ repr_entities cpp (p_type p)) ps) <->
      exists p, In p ps /\ (within (p_type p) (fun u => mem e (repr_own u)) \/ (e = cc_optional_as cpp /\ p_optional p = true))).
    { intros ps. rewrite in_flat_map. split; intros (p & Hp & H); exists p; (split; [exact Hp|]).
      - apply in_app_or in H as [H|H]; [right|left; now apply repr_within]. destruct (p_optional p); [|destruct H]. destruct H as [<-|[]]. auto.
      - apply in_or_app. destruct H as [H|(-> & ->)]; [right; now apply repr_within|left; now left]. }
    split.
    - intros [(x & Hx & H)|[(c & Hc & H)|[H|(c & Hc & H)]]].
      + apply F in H as (p & Hp & [H|(-> & H)]).
        * left. exists (e_props x), p. rewrite !in_app_iff. split; [right; left; now apply in_map|]. auto.
        * right; left. split; [reflexivity|]. exists (e_props x), p. rewrite !in_app_iff. split; [right; left; now apply in_map|]. auto.
      + assert (NE : g_classes g <> []) by (intros E; now rewrite E in Hc). destruct H as [<-|H]; [right; right; auto|].
        apply F in H as (p & Hp & [H|(-> & H)]).
        * left. exists (c_props c), p. rewrite !in_app_iff. split; [left; now apply in_map|]. auto.
        * right; left. split; [reflexivity|]. exists (c_props c), p. rewrite !in_app_iff. split; [left; now apply in_map|]. auto.
      + apply in_flat_map, F in H as (p & Hp & [H|(-> & H)]).
        * left. exists (g_props g), p. rewrite !in_app_iff. cbn. auto.
        * right; left. split; [reflexivity|]. exists (g_props g), p. rewrite !in_app_iff. cbn. auto.
      + assert (NE : g_classes g <> []) by (intros E; now rewrite E in Hc). right; right. split; [|exact NE].
        destruct H as [<-|[<-|[<-|[]]]]; auto.
    - assert (P : (exists ps p, In ps (map c_props (g_classes g) ++ map e_props (g_embeds g) ++ [g_props g]) /\ In p ps /\
                     (within (p_type p) (fun u => mem e (repr_own u)) \/ (e = cc_optional_as cpp /\ p_optional p = true))) ->
                  (exists x, In x (g_embeds g) /\ In e (flat_map (fun p => (if p_optional p then [cc_optional_as cpp] else []) ++ repr_entities cpp (p_type p)) (e_props x))) \/
                  (exists x, In x (g_classes g) /\ In e (s_ "std::string" :: flat_map (fun p => (if p_optional p then [cc_optional_as cpp] else []) ++ repr_entities cpp (p_type p)) (c_props x))) \/
                  (exists x, In x (g_props g) /\ In e ((if p_optional x then [cc_optional_as cpp] else []) ++ repr_entities cpp (p_type x))) \/
                  (exists x : cls, In x (g_classes g) /\ In e [s_ "std::map"; s_ "std::string"; s_ "std::unique_ptr"])).
      { intros (ps & p & Hps & Hp & H). assert (X : In e (flat_map (fun p => (if p_optional p then [cc_optional_as cpp] else []) ++ repr_entities cpp (p_type p)) ps)) by (apply F; eauto).
        rewrite !in_app_iff in Hps. destruct Hps as [Hps|[Hps|[<-|[]]]].
        - apply in_map_iff in Hps as (c & <- & Hc). right; left. exists c. split; [exact Hc|now right].
        - apply in_map_iff in Hps as (x & <- & Hx). left. eauto.
        - right; right; left. now apply in_flat_map. }
      intros [(ps & p & H1 & H2 & H3)|[(E & ps & p & H1 & H2 & H3)|(H & NE)]].
      + apply P. exists ps, p. auto.
      + apply P. exists ps, p. auto.
      + destruct (g_classes g) as [|c l]; [congruence|]. right; right; right. exists c. split; [now left|]. cbn. intuition.
  Qed.

  Lemma some_at t ref (P : ty -> bool) : value_type g t ref -> P t = true -> some_type g P.
  Proof. intros. now exists t, ref. Qed.

  Ltac by_header x := exists x; split; [|table].

  (** Everything but the keys of maps is declared by what is included. *)
  Lemma repr_declared l : (forall h, In h l <-> types_reason h) -> forall e,
    some_type g (fun u => mem e (repr_own u)) -> declared_in l e \/ e = s_ "std::string" /\ some_type g is_map.
  Proof.
    intros HL e (t & ref & Hv & Ht). apply mem_In in Ht. assert (S := fun P => some_at t ref P Hv).
    destruct t as [|b|b|p|p|f|f|f| | |v mn mx|v|n|n]; cbn [repr_own repr_entities] in Ht; try (now destruct Ht).
    - destruct Ht as [<-|[]]. left. by_header (s_ "cstdint"). apply HL. left. split; [reflexivity|now apply S].
    - destruct Ht as [<-|[]]. left. by_header (s_ "string"). apply HL. right; left. split; [reflexivity|]. left. now apply S.
    - destruct Ht as [<-|[]]. left. destruct HS as ([X|[X|[]]] & _).
      + exists (s_ "filesystem"). assert (D : declares (s_ "filesystem") (cc_path_as cpp)) by (rewrite <- X; table). split; [|exact D].
        apply HL. right; right; left. split; [exact D|now apply S].
      + exists (s_ "boost/filesystem/path.hpp"). assert (D : declares (s_ "boost/filesystem/path.hpp") (cc_path_as cpp)) by (rewrite <- X; table). split; [|exact D].
        apply HL. right; right; left. split; [exact D|now apply S].
    - left. destruct (ctime cpp) eqn:C; destruct Ht as [<-|[]].
      + by_header (s_ "ctime"). apply HL. do 3 right. left. left. split; [reflexivity|]. split; [exact C|now apply S].
      + by_header (s_ "date/date.h"). apply HL. do 3 right. left. do 3 right. left. split; [reflexivity|]. split; [exact C|now apply S].
    - left. destruct (ctime cpp) eqn:C; [destruct Ht as [<-|[]]|destruct Ht as [<-|[<-|[]]]].
      + by_header (s_ "ctime"). apply HL. do 3 right. left. left. split; [reflexivity|]. split; [exact C|now apply S].
      + by_header (s_ "date/date.h"). apply HL. do 3 right. left. do 3 right. left. split; [reflexivity|]. split; [exact C|now apply S].
      + by_header (s_ "chrono"). apply HL. do 3 right. left. do 2 right. left. split; [reflexivity|]. split; [exact C|now apply S].
    - left. destruct (ctime cpp) eqn:C; destruct Ht as [<-|[]].
      + by_header (s_ "ctime"). apply HL. do 3 right. left. left. split; [reflexivity|]. split; [exact C|now apply S].
      + by_header (s_ "date/date.h"). apply HL. do 3 right. left. do 3 right. left. split; [reflexivity|]. split; [exact C|now apply S].
    - left. destruct (ctime cpp) eqn:C; destruct Ht as [<-|[]].
      + by_header (s_ "string"). apply HL. do 3 right. left. right. left. split; [reflexivity|]. split; [exact C|now apply S].
      + by_header (s_ "date/tz.h"). apply HL. do 3 right. left. do 4 right. split; [reflexivity|]. split; [exact C|now apply S].
    - destruct Ht as [<-|[]]. left. by_header (s_ "chrono"). apply HL. do 4 right. left. split; [reflexivity|now apply S].
    - destruct Ht as [<-|[]]. left. by_header (s_ "vector"). apply HL. do 5 right. left. split; [reflexivity|now apply S].
    - destruct Ht as [<-|[<-|[]]].
      + left. by_header (s_ "map"). apply HL. do 6 right. left. split; [reflexivity|]. left. now apply S.
      + right. split; [reflexivity|now apply S].
  Qed.

  Lemma types_declared l : (forall h, In h l <-> types_reason h) -> forall e,
    In e (types_entities cpp g) -> declared_in l e \/ e = s_ "std::string" /\ some_type g is_map.
  Proof.
    intros HL e H. apply types_entities_In in H as [H|[(-> & H)|(H & NE)]]; [now apply repr_declared| |].
    - left. destruct HS as (_ & [X|[X|[X|[]]]] & _).
      + exists (s_ "boost/optional.hpp"). assert (D : declares (s_ "boost/optional.hpp") (cc_optional_as cpp)) by (rewrite <- X; table). split; [|exact D].
        apply HL. do 8 right. now split.
      + exists (s_ "optional"). assert (D : declares (s_ "optional") (cc_optional_as cpp)) by (rewrite <- X; table). split; [|exact D].
        apply HL. do 8 right. now split.
      + exists (s_ "optional.hpp"). assert (D : declares (s_ "optional.hpp") (cc_optional_as cpp)) by (rewrite <- X; table). split; [|exact D].
        apply HL. do 8 right. now split.
    - left. destruct H as [->|[->| ->]].
      + by_header (s_ "string"). apply HL. right; left. split; [reflexivity|now right].
      + by_header (s_ "map"). apply HL. do 6 right. left. split; [reflexivity|now right].
      + by_header (s_ "memory"). apply HL. do 7 right. left. now split.
  Qed.

  (** Everything which is included is mentioned. *)
  Lemma types_used h : types_reason h -> used_header (types_entities cpp g) h.
  Proof.
    assert (B : forall e (P : ty -> bool), (forall t, P t = true -> In e (repr_own t)) -> some_type g P -> In e (types_entities cpp g)).
    { intros e P HP H. apply types_entities_In. left. eapply some_imp; [|exact H]. intros t Ht. apply mem_In. auto. }
    unfold types_reason. intros [(-> & H)|[(-> & [H|H])|[(D & H)|[H|[(-> & H)|[(-> & H)|[(-> & [H|H])|[(-> & H)|(D & H)]]]]]]]].
    - exists (s_ "int64_t"). split; [|table]. apply (B _ is_int); [|exact H]. intros []; try discriminate. now left.
    - exists (s_ "std::string"). split; [|table]. apply (B _ is_string); [|exact H]. intros []; try discriminate. now left.
    - exists (s_ "std::string"). split; [|table]. apply types_entities_In. right; right. auto.
    - exists (cc_path_as cpp). split; [|exact D]. apply (B _ is_path); [|exact H]. intros []; try discriminate. now left.
    - destruct H as [(-> & C & H)|[(-> & C & H)|[(-> & C & H)|[(-> & C & H)|(-> & C & H)]]]].
      + exists (s_ "struct tm"). split; [|table]. apply (B _ moment); [|exact H]. intros []; try discriminate; cbn [repr_own repr_entities]; rewrite C; now left.
      + exists (s_ "std::string"). split; [|table]. apply (B _ is_time_zone); [|exact H]. intros []; try discriminate; cbn [repr_own repr_entities]; rewrite C; now left.
      + exists (s_ "std::chrono::seconds"). split; [|table]. apply (B _ is_time); [|exact H]. intros []; try discriminate; cbn [repr_own repr_entities]; rewrite C. right. now left.
      + destruct H as (t & ref & Hv & Ht). destruct t as [| | | | |f|f|f| | | | | |]; try discriminate Ht.
        * exists (s_ "date::local_days"). split; [|table]. apply types_entities_In. left. exists (TDate f), ref. split; [exact Hv|]. apply mem_In. cbn [repr_own repr_entities]. rewrite C. now left.
        * exists (s_ "date::time_of_day"). split; [|table]. apply types_entities_In. left. exists (TTime f), ref. split; [exact Hv|]. apply mem_In. cbn [repr_own repr_entities]. rewrite C. now left.
        * exists (s_ "date::local_seconds"). split; [|table]. apply types_entities_In. left. exists (TDatetime f), ref. split; [exact Hv|]. apply mem_In. cbn [repr_own repr_entities]. rewrite C. now left.
      + exists (s_ "date::time_zone"). split; [|table]. apply (B _ is_time_zone); [|exact H]. intros []; try discriminate; cbn [repr_own repr_entities]; rewrite C; now left.
    - exists (s_ "std::chrono::nanoseconds"). split; [|table]. apply (B _ is_duration); [|exact H]. intros []; try discriminate. now left.
    - exists (s_ "std::vector"). split; [|table]. apply (B _ is_array); [|exact H]. intros []; try discriminate. now left.
    - exists (s_ "std::map"). split; [|table]. apply (B _ is_map); [|exact H]. intros []; try discriminate. now left.
    - exists (s_ "std::map"). split; [|table]. apply types_entities_In. right; right. auto.
    - exists (s_ "std::unique_ptr"). split; [|table]. apply types_entities_In. right; right. auto.
    - exists (cc_optional_as cpp). split; [|exact D]. apply types_entities_In. right; left. auto.
  Qed.

  (** * jsoncpp.h *)
  Lemma header_ok : exists l, jsoncpp_header_includes cpp g = Ok l /\ In (s_ "json/json.h") l.
  Proof.
    destruct path_ok as (pl & pm & EP & HP). destruct optional_ok as (ol & om & EO & HO).
    unfold jsoncpp_header_includes. rewrite EP. cbn [bind]. rewrite EO. cbn [bind fst snd]. eexists. split; [reflexivity|].
    rewrite in_app_iff, !(fun l => proj2 (import_declarations_exact l) (s_ "json/json.h")), !in_app_iff. left; left. now left.
  Qed.

  Lemma header_sees_ok : exists l lt, jsoncpp_header_sees cpp g = Ok l /\ types_includes cpp g = Ok lt /\
    (forall h, In h lt <-> types_reason h) /\ incl lt l /\ In (s_ "json/json.h") l /\ In (s_ "string") l /\ In (s_ "vector") l.
  Proof.
    destruct header_ok as (l & E & H). destruct types_ok as (lt & ET & HT). unfold jsoncpp_header_sees. rewrite E, ET. cbn [bind].
    exists (l ++ lt ++ parse_header_includes), lt. split; [reflexivity|]. split; [reflexivity|]. split; [exact HT|].
    split; [intros h Hh; rewrite !in_app_iff; auto|]. rewrite !in_app_iff. cbn. auto 8.
  Qed.

  Lemma header_declared_at l lt : (forall h, In h lt <-> types_reason h) -> incl lt l -> In (s_ "json/json.h") l -> In (s_ "string") l ->
    forall e, In e (jsoncpp_header_entities g) -> declared_in l e.
  Proof.
    intros HT HI HJ HStr e H. unfold jsoncpp_header_entities in H. apply in_app_or in H as [[<-|[<-|[]]]|H].
    - by_header (s_ "json/json.h"). exact HJ.
    - by_header (s_ "string"). exact HStr.
    - apply in_flat_map in H as (c & Hc & H). assert (NE : g_classes g <> []) by (intros E; now rewrite E in Hc).
      destruct H as [<-|[<-|[<-|[]]]].
      + by_header (s_ "map"). apply HI, HT. do 6 right. left. split; [reflexivity|now right].
      + by_header (s_ "string"). exact HStr.
      + by_header (s_ "memory"). apply HI, HT. do 7 right. left. now split.
  Qed.

  Lemma header_declared : exists l, jsoncpp_header_sees cpp g = Ok l /\ forall e, In e (jsoncpp_header_entities g) -> declared_in l e.
  Proof.
    destruct header_sees_ok as (l & lt & E & _ & HT & HI & HJ & HStr & _). exists l. split; [exact E|]. now apply header_declared_at with lt.
  Qed.

  (** * jsoncpp.cpp *)
  Definition impl_reason (h : str) : Prop :=
    In h (map s_ ["cstring"; "string"; "sstream"; "stdexcept"; "memory"; "utility"]%string) \/
    h = s_ "regex" /\ (some_type g constrained \/ some_type g is_duration \/ id_patterns g) \/
    In h (map s_ ["iomanip"; "limits"; "cmath"]%string) /\ some_type g is_duration.
  Lemma impl_ok : exists l, impl_includes cpp g = Ok l /\ forall h, impl_reason h -> In h l.
  Proof.
    unfold impl_includes, impl_reason.
    match goal with |- exists l, bind ?r _ = _ /\ _ => assert (X : exists d, r = Ok d) by (destruct library as [(C & D)|(C & D)]; rewrite C, ?D; eauto); destruct X as (d & ->) end.
    cbn [bind]. eexists. split; [reflexivity|]. intros h H.
    rewrite in_app_iff, !(fun l => proj2 (import_declarations_exact l) h), !in_app_iff, !In_when, orb_true_iff, iterate_some, (id_patterns_b g), (needs_duration g HR).
    rewrite (some_or g constrained is_duration cpp_needs_regex) by (intros [| | |[]|[]| | | | | | | | |]; reflexivity).
    right. destruct H as [H|[(-> & H)|(H & HD)]].
    - left. exact H.
    - right; left. split; [intuition|now left].
    - right; right; right. split; [exact HD|exact H].
  Qed.

  Definition parse_own (t : ty) : list str :=
    match t with
    | TArray _ _ _ => [s_ "Json::Value"; s_ "strlen"; s_ "std::string"] ++ repr_entities cpp t ++ [s_ "std::to_string"]
    | TMap _ => [s_ "Json::Value"; s_ "strlen"; s_ "std::string"] ++ repr_entities cpp t
    | _ => parse_entities cpp t
    end.
  Lemma parse_within e t : In e (parse_entities cpp t) <-> within t (fun u => mem e (parse_own u)).
  Proof.
    apply (within_own (parse_entities cpp) parse_own); [| |intros []; exact I || reflexivity].
    - intros v mn mx. cbn [parse_entities parse_own]. rewrite <- !app_assoc. reflexivity.
    - intros v. cbn [parse_entities parse_own]. rewrite <- !app_assoc. reflexivity.
  Qed.
  Definition serialize_own (t : ty) : list str :=
    match t with TArray _ _ _ | TMap _ => [s_ "Json::Value"; s_ "std::move"] | _ => serialize_entities cpp t end.
  Lemma serialize_within e t : In e (serialize_entities cpp t) <-> within t (fun u => mem e (serialize_own u)).
  Proof. apply (within_own (serialize_entities cpp) serialize_own); [reflexivity..|]. intros []; exact I || reflexivity. Qed.

  Lemma some_within t ref u : value_type g t ref -> forall n, inside t n u -> exists ref', value_type g u ref'.
  Proof.
    intros [r ps p n Hc Hp Hi _] m Hu. assert (I2 : exists k, inside (p_type p) k u).
    { clear Hc Hp. revert m u Hu. induction Hi; intros m u0 Hu; [eauto| |]; destruct (IHHi _ _ Hu) as (k & Hk); exists (S k); now constructor. }
    destruct I2 as (k & Hk). eexists. econstructor; [exact Hc|exact Hp|exact Hk|reflexivity].
  Qed.

  Lemma impl_sees_ok : exists l lt, impl_sees cpp g = Ok l /\ (forall h, In h lt <-> types_reason h) /\ incl lt l /\
    In (s_ "json/json.h") l /\ (forall h, impl_reason h -> In h l).
  Proof.
    destruct header_sees_ok as (lh & lt & EH & _ & HT & HI & HJ & _). destruct impl_ok as (l & E & H).
    unfold impl_sees. rewrite EH. cbn [bind]. rewrite E. cbn [bind]. exists (lh ++ l), lt. split; [reflexivity|]. split; [exact HT|].
    split; [intros h Hh; apply in_or_app; left; now apply HI|]. split; [apply in_or_app; now left|]. intros h Hh. apply in_or_app. right. now apply H.
  Qed.

  Section Impl.
    Variables (l lt : list str).
    Hypothesis HT : forall h, In h lt <-> types_reason h.
    Hypothesis HI : incl lt l.
    Hypothesis HJ : In (s_ "json/json.h") l.
    Hypothesis HO : forall h, impl_reason h -> In h l.

    Let always h : In h (map s_ ["cstring"; "string"; "sstream"; "stdexcept"; "memory"; "utility"]%string) -> In h l.
    Proof. intros H. apply HO. now left. Qed.
    Ltac std x := exists x; split; [apply always; cbn; tauto|table].

    Lemma parse_declared e : some_type g (fun u => mem e (parse_own u)) -> declared_in l e.
    Proof.
      intros (t & ref & Hv & Ht). apply mem_In in Ht. assert (S := fun P => some_at t ref P Hv).
      assert (R : forall e, In e (repr_entities cpp t) -> declared_in l e).
      { intros x Hx. apply repr_within in Hx as (n & u & Hi & Hu). destruct (some_within _ _ _ Hv _ Hi) as (ref' & Hv').
        destruct (repr_declared lt HT x) as [D|(-> & _)]; [now exists u, ref'|now apply declared_mono with lt|]. std (s_ "string"). }
      assert (RX : constrained t = true -> declared_in l (s_ "std::regex") /\ declared_in l (s_ "std::regex_match")).
      { intros C. assert (In (s_ "regex") l) by (apply HO; right; left; split; [reflexivity|left; now apply S]).
        split; exists (s_ "regex"); (split; [assumption|table]). }
      destruct t as [|b|b|p|p|f|f|f| | |v mn mx|v|n|n]; cbn [parse_own parse_entities app In] in Ht.
      all: destruct Ht as [<-|[<-|[<-|Ht]]]; [by_header (s_ "json/json.h"); exact HJ|std (s_ "cstring")|std (s_ "string")|].
      all: try (now destruct Ht).
      - apply in_app_or in Ht as [Ht|Ht]; [destruct (b_min b)|destruct (b_max b)]; try (now destruct Ht); destruct Ht as [<-|[]]; std (s_ "string").
      - apply in_app_or in Ht as [Ht|Ht]; [destruct (b_min b)|destruct (b_max b)]; try (now destruct Ht); destruct Ht as [<-|[]]; std (s_ "string").
      - destruct p; [|destruct Ht]. destruct Ht as [<-|[<-|[]]]; now apply RX.
      - apply in_app_or in Ht as [Ht|[<-|[]]].
        + destruct p; [|destruct Ht]. destruct Ht as [<-|[<-|[]]]; now apply RX.
        + apply R. now left.
      - destruct (ctime cpp) eqn:C; destruct Ht as [<-|[<-|[]]].
        + apply R. cbn [repr_entities]. rewrite C. now left.
        + by_header (s_ "ctime"). apply HI, HT. do 3 right. left. left. split; [reflexivity|]. split; [exact C|now apply S].
        + std (s_ "sstream").
        + by_header (s_ "date/date.h"). apply HI, HT. do 3 right. left. do 3 right. left. split; [reflexivity|]. split; [exact C|now apply S].
      - destruct (ctime cpp) eqn:C; [destruct Ht as [<-|[<-|[]]]|destruct Ht as [<-|[<-|[<-|[<-|[]]]]]].
        + apply R. cbn [repr_entities]. rewrite C. now left.
        + by_header (s_ "ctime"). apply HI, HT. do 3 right. left. left. split; [reflexivity|]. split; [exact C|now apply S].
        + apply R. cbn [repr_entities]. rewrite C. right. now left.
        + std (s_ "sstream").
        + by_header (s_ "date/date.h"). apply HI, HT. do 3 right. left. do 3 right. left. split; [reflexivity|]. split; [exact C|now apply S].
        + by_header (s_ "date/date.h"). apply HI, HT. do 3 right. left. do 3 right. left. split; [reflexivity|]. split; [exact C|now apply S].
      - destruct (ctime cpp) eqn:C; destruct Ht as [<-|[<-|[]]].
        + apply R. cbn [repr_entities]. rewrite C. now left.
        + by_header (s_ "ctime"). apply HI, HT. do 3 right. left. left. split; [reflexivity|]. split; [exact C|now apply S].
        + std (s_ "sstream").
        + by_header (s_ "date/date.h"). apply HI, HT. do 3 right. left. do 3 right. left. split; [reflexivity|]. split; [exact C|now apply S].
      - destruct (ctime cpp) eqn:C; [destruct Ht|destruct Ht as [<-|[<-|[]]]].
        + by_header (s_ "date/tz.h"). apply HI, HT. do 3 right. left. do 4 right. split; [reflexivity|]. split; [exact C|now apply S].
        + std (s_ "stdexcept").
      - destruct Ht as [<-|[]]. apply R. now left.
      - destruct Ht as [Ht|Ht]; [apply R; now left|]. apply in_app_or in Ht as [Ht|[<-|[]]]; [apply R; now right|]. std (s_ "string").
      - destruct Ht as [Ht|[Ht|Ht]]; apply R; [now left|right; now left|right; now right].
    Qed.

    Lemma serialize_declared e : some_type g (fun u => mem e (serialize_own u)) -> declared_in l e.
    Proof.
      intros (t & ref & Hv & Ht). apply mem_In in Ht. assert (S := fun P => some_at t ref P Hv).
      assert (D : ctime cpp = false -> moment t = true -> declared_in l (s_ "date::format")).
      { intros C M. by_header (s_ "date/date.h"). apply HI, HT. do 3 right. left. do 3 right. left. split; [reflexivity|]. split; [exact C|now apply S]. }
      destruct t as [|b|b|p|p|f|f|f| | |v mn mx|v|n|n]; cbn [serialize_own serialize_entities] in Ht; try (now destruct Ht).
      - destruct (ctime cpp); [destruct Ht|]. destruct f; [destruct Ht|]. destruct Ht as [<-|[]]. now apply D.
      - destruct (ctime cpp); [destruct Ht|]. destruct f; [destruct Ht|]. destruct Ht as [<-|[]]. now apply D.
      - destruct (ctime cpp); [destruct Ht|]. destruct f; [destruct Ht|]. destruct Ht as [<-|[]]. now apply D.
      - destruct Ht as [<-|[<-|[]]]; [by_header (s_ "json/json.h"); exact HJ|std (s_ "utility")].
      - destruct Ht as [<-|[<-|[]]]; [by_header (s_ "json/json.h"); exact HJ|std (s_ "utility")].
    Qed.

    Lemma properties_declared ps e : In ps (composites g) ->
      In e (flat_map (fun p => parse_entities cpp (p_type p) ++ serialize_entities cpp (p_type p)) ps) -> declared_in l e.
    Proof.
      intros Hps H. apply in_flat_map in H as (p & Hp & H). apply in_app_or in H as [H|H].
      - apply parse_declared, some_type_within. exists ps, p. split; [exact Hps|]. split; [exact Hp|]. now apply parse_within.
      - apply serialize_declared, some_type_within. exists ps, p. split; [exact Hps|]. split; [exact Hp|]. now apply serialize_within.
    Qed.

    Lemma impl_declared e : In e (impl_entities cpp g) -> declared_in l e \/ e = s_ "std::atol" /\ some_type g is_duration.
    Proof.
      intros H. unfold impl_entities in H.
      assert (CE : forall ps, In ps (composites g) -> In e (composite_entities cpp g ps) -> declared_in l e).
      { intros ps Hps Hin. unfold composite_entities in Hin. rewrite !in_app_iff in Hin. destruct Hin as [Hin|[[<-|[]]|Hin]].
        - eapply header_declared_at; [exact HT|exact HI|exact HJ| |exact Hin]. apply always. cbn. tauto.
        - std (s_ "cstring").
        - now apply properties_declared with ps. }
      assert (RX : some_type g is_duration \/ id_patterns g -> In (s_ "regex") l).
      { intros X. apply HO. right; left. split; [reflexivity|]. intuition. }
      rewrite !in_app_iff, !in_flat_map in H. destruct H as [H|[H|[H|[H|[(c & Hc & H)|[(x & Hx & H)|H]]]]]].
      - left. destruct H as [<-|[<-|[<-|[<-|[<-|[]]]]]]; [std (s_ "string")|std (s_ "cstring")|by_header (s_ "json/json.h"); exact HJ|std (s_ "sstream")|std (s_ "stdexcept")].
      - left. unfold regex_entities in H. apply in_app_or in H as [H|H].
        + destruct (graph_needs g (KPrim PDuration)) eqn:E; [|destruct H]. apply (needs_duration g HR) in E. destruct H as [<-|[]].
          by_header (s_ "regex"). auto.
        + apply in_flat_map in H as (c & Hc & H). destruct (c_id_pattern c) eqn:E; [|destruct H]. destruct H as [<-|[]].
          by_header (s_ "regex"). apply RX. right. exists c. split; [exact Hc|congruence].
      - destruct (graph_needs g (KPrim PDuration)) eqn:E; [|destruct H]. apply (needs_duration g HR) in E.
        assert (ID : forall h, In h (map s_ ["iomanip"; "limits"; "cmath"]%string) -> In h l) by (intros h Hh; apply HO; right; right; now split).
        assert (CH : In (s_ "chrono") l) by (apply HI, HT; do 4 right; left; now split).
        destruct H as [<-|[<-|[<-|[<-|[<-|[<-|[<-|[<-|[<-|[<-|[<-|[<-|[<-|[<-|[]]]]]]]]]]]]]]].
        + left. std (s_ "stdexcept").
        + left. by_header (s_ "limits"). apply ID. cbn. tauto.
        + left. by_header (s_ "chrono"). exact CH.
        + left. std (s_ "string").
        + left. by_header (s_ "regex"). auto.
        + left. by_header (s_ "regex"). auto.
        + left. std (s_ "sstream").
        + left. std (s_ "cstring").
        + right. auto.
        + left. std (s_ "string").
        + left. std (s_ "string").
        + left. std (s_ "stdexcept").
        + left. by_header (s_ "iomanip"). apply ID. cbn. tauto.
        + left. by_header (s_ "iomanip"). apply ID. cbn. tauto.
      - left. destruct (ctime cpp && any_date g) eqn:E; [|destruct H]. apply andb_true_iff in E as (C & E). apply any_date_some in E.
        assert (CT : In (s_ "ctime") l) by (apply HI, HT; do 3 right; left; left; auto).
        destruct H as [<-|[<-|[<-|[<-|[<-|[]]]]]]; [std (s_ "string")|by_header (s_ "ctime"); exact CT|std (s_ "cstring")|std (s_ "cstring")|by_header (s_ "ctime"); exact CT].
      - left. apply (CE (c_props c)); [|exact H]. unfold composites. rewrite !in_app_iff. left. now apply in_map.
      - left. apply (CE (e_props x)); [|exact H]. unfold composites. rewrite !in_app_iff. right; left. now apply in_map.
      - left. unfold graph_entities in H. apply in_app_or in H as [[<-|[<-|[<-|[<-|[]]]]]|H].
        + by_header (s_ "json/json.h"). exact HJ.
        + std (s_ "string").
        + std (s_ "stdexcept").
        + std (s_ "cstring").
        + apply in_app_or in H as [H|H].
          * apply in_flat_map in H as (c & Hc & H). apply in_app_or in H as [[<-|[<-|[<-|[<-|[]]]]]|H].
            -- std (s_ "string").
            -- by_header (s_ "json/json.h"). exact HJ.
            -- std (s_ "memory").
            -- std (s_ "utility").
            -- destruct (c_id_pattern c) eqn:E; [|destruct H]. destruct H as [<-|[]]. by_header (s_ "regex"). apply RX. right.
               exists c. split; [exact Hc|congruence].
          * apply (properties_declared (g_props g)); [|exact H]. unfold composites. rewrite !in_app_iff. cbn. auto.
    Qed.
  End Impl.
End Cpp.
