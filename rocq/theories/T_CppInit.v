(** Theorems: which members of the generated C++ structures have a value from the start (C64). *)
From Coq Require Import String List Arith NArith ZArith Bool Lia.
From Verif Require Import Base M_Naming M_Schema M_Dec M_TypeGraph M_Walk M_Text M_Validate M_LangValid M_AutoID M_GoImports S_Scope M_Scope M_GoScope M_CppScope
  S_TypeGraph S_Conform S_Walk S_Validate S_GoImports S_Imports S_LangValid
  P_Common P_TypeGraph P_Naming P_Walk P_Validate P_ValidateType P_ValidateDoc P_NoRaise P_ParseInv P_Parsed P_LangValid P_GoImports P_Scope P_PyScope P_BlockScope P_GoFunctions
  P_CppScope P_CppSource T_Validate T_LangValid T_EndToEnd T_GoImports T_Imports T_GoScope T_CppScope
  S_CppTyping M_CppTyping P_CppTyping P_CppPackage S_CppInit M_CppInit.
Import ListNotations.
Open Scope list_scope.
Local Open Scope nat_scope.

(** The structures are those whose types C62 is about. *)
Theorem C64_cpp_members cpp g :
  map (fun s => (fst s, map (fun m => (d_name m, d_type m)) (snd s))) (declared_structs cpp g) = cpp_structs cpp g.
Proof.
  assert (P : forall ps, map (fun m => (d_name m, d_type m)) (map (property_field cpp) ps) = map (cmember cpp) ps).
  { intros ps. rewrite map_map. apply map_ext. intros p. unfold property_field, cmember. now destruct (p_optional p). }
  unfold declared_structs, cpp_structs. rewrite !map_app, !map_map. cbn [map fst snd]. f_equal; [|f_equal].
  - apply map_ext. intros e. now rewrite P.
  - apply map_ext. intros c. now rewrite P.
  - now rewrite map_app, P, map_map.
Qed.
Print Assumptions C64_cpp_members.

(** The initializers fit the types of their members. *)
Theorem C64_cpp_initializers cpp g x members m i :
  In (x, members) (declared_structs cpp g) -> In m members -> d_initializer m = Some i -> initializes i (d_type m).
Proof.
  assert (P : forall p, d_initializer (property_field cpp p) = Some i -> initializes i (d_type (property_field cpp p))).
  { intros p. unfold property_field. destruct (p_optional p); cbn; [discriminate|].
    destruct (p_type p); cbn; try discriminate; try (destruct (cpp_ctime cpp); try discriminate); intros E; injection E as <-; constructor. }
  unfold declared_structs. rewrite !in_app_iff, !in_map_iff. intros [(e & E & _)|[(c & E & _)|[E|[]]]] Hm Hi; injection E as <- <-.
  - apply in_map_iff in Hm as (p & <- & _). now apply P.
  - destruct Hm as [<-|Hm]; [discriminate|]. apply in_map_iff in Hm as (p & <- & _). now apply P.
  - apply in_app_iff in Hm as [Hm|Hm]; apply in_map_iff in Hm as (p & <- & _); [now apply P|discriminate].
Qed.
Print Assumptions C64_cpp_initializers.

(** C64: in all documents which pass the validations, if the graph is not called like another
    structure, a variable of the type of a structure has an indeterminate part if and only if a
    required duration, or a required time if the library does not set it, is among the
    properties of the structure or of a required structure in it. *)
Theorem C64_cpp_partial v s cpp time_of_day_set :
  document_of s v -> sc_cpp s = Some cpp -> cpp_validate (sc_graph s) = Ok [] -> graph_apart upper_camel (sc_graph s) ->
  forall n i ps, In (n, ps) (structures (sc_graph s)) -> upper_camel n i ->
    (indeterminate time_of_day_set (declared_structs cpp (sc_graph s)) (CNamed i) <->
     left_open time_of_day_set (sc_graph s) (str_eqb (cc_datetime_library cpp) (s_ "ctime")) ps).
Proof.
  intros Hd Hcpp Hv Hapart. set (g := sc_graph s) in *.
  assert (HR := document_resolved _ _ Hd). fold g in HR.
  assert (HA : graph_apart camel_composite g) by (intros n i Hn [_ Hi] [_ Hj]; exact (Hapart n i Hn Hi Hj)).
  destruct (C38_no_clash_partial g HA Hv) as [(ns & F1 & N1 & K1) _].
  assert (Hpath : In (cc_path_as cpp) paths) by apply (document_cpp_settings _ _ _ Hd Hcpp).
  assert (Hcname : forall n, In n (structure_names g) -> exists i, upper_camel n i /\ capital_name i).
  { intros n Hn. destruct (Forall2_In_l _ _ _ F1 _ Hn) as (i & _ & [(c & r & -> & Hc) Hi]). exists i. split; [exact Hi|].
    apply (upper_initial _ _ Hi). exists c, r. split; [reflexivity|]. unfold is_upper. rewrite andb_true_iff, !N.leb_le. lia. }
  assert (Hcap : forall n, In n (structure_names g) -> capital_name (ucamel n)).
  { intros n Hn. destruct (Hcname n Hn) as (i & Hi & Hc). now rewrite (ucamel_right _ _ Hi). }
  assert (Htypes : NoDup (map ucamel (structure_names g))).
  { replace (map ucamel (structure_names g)) with ns; [exact N1|]. clear -F1. unfold structure_names.
    induction F1 as [|n i l ns [_ H] _ IH]; [reflexivity|]. cbn [map]. now rewrite (ucamel_right _ _ H), IH. }
  assert (Hsn : map fst (structures g) = structure_names g).
  { unfold structures, structure_names. cbn [map fst]. now rewrite map_app, !map_map. }
  (* what has the name of a structure is the structure *)
  assert (Hstruct : forall n ps members, In (n, ps) (structures g) -> In (ucamel n, members) (declared_structs cpp g) ->
            forall m, In m members -> (exists p, In p ps /\ m = property_field cpp p) \/ (d_type m = CString \/ exists c, d_type m = t_instances c)).
  { intros n ps members Hn Hm. assert (exists n', In (n', ps) (structures g) /\ n' = n /\
      (members = map (property_field cpp) ps \/ members = Declared (s_ "id") CString None :: map (property_field cpp) ps \/
       members = map (property_field cpp) ps ++ map (fun c => Declared (lower (c_plural c)) (t_instances c) None) (g_classes g))) as (n' & _ & _ & Hcase).
    { unfold declared_structs in Hm. rewrite !in_app_iff, !in_map_iff in Hm.
      assert (Huniq : forall n' ps', In (n', ps') (structures g) -> ucamel n' = ucamel n -> n' = n /\ ps' = ps).
      { intros n' ps' Hn' E. rewrite <- Hsn, map_map in Htypes. assert (X := NoDup_map_eq _ _ _ _ Htypes Hn' Hn E). now injection X. }
      exists n. split; [exact Hn|]. split; [reflexivity|]. destruct Hm as [(e & E & He)|[(c & E & Hc)|[E|[]]]]; injection E as E <-.
      - destruct (Huniq (e_name e) (e_props e)) as [_ <-]; [|exact E|now left]. unfold structures. right. rewrite in_app_iff. right. now apply (in_map (fun e => (e_name e, e_props e))).
      - destruct (Huniq (c_name c) (c_props c)) as [_ <-]; [|exact E|now right; left]. unfold structures. right. rewrite in_app_iff. left. now apply (in_map (fun e => (c_name e, c_props e))).
      - destruct (Huniq (g_name g) (g_props g)) as [_ <-]; [now left|exact E|now right; right]. }
    intros m Hin. destruct Hcase as [->|[->| ->]].
    - apply in_map_iff in Hin as (p & <- & Hp). left. eauto.
    - destruct Hin as [<-|Hin]; [now right; left|]. apply in_map_iff in Hin as (p & <- & Hp). left. eauto.
    - apply in_app_iff in Hin as [Hin|Hin]; apply in_map_iff in Hin as (p & <- & Hp); [left; eauto|]. right. right. now exists p. }
  assert (Hmember : forall n ps, In (n, ps) (structures g) -> exists members, In (ucamel n, members) (declared_structs cpp g) /\
            forall p, In p ps -> In (property_field cpp p) members).
  { intros n ps Hn. unfold structures in Hn. cbn [In] in Hn. rewrite in_app_iff, !in_map_iff in Hn. unfold declared_structs.
    destruct Hn as [E|[(c & E & Hc)|(e & E & He)]]; injection E as <- <-; eexists; rewrite !in_app_iff, !in_map_iff.
    - split; [right; right; left; reflexivity|]. intros p Hp. rewrite in_app_iff. left. now apply in_map.
    - split; [right; left; exists c; split; [reflexivity|exact Hc]|]. intros p Hp. right. now apply in_map.
    - split; [left; exists e; split; [reflexivity|exact He]|]. intros p Hp. now apply in_map. }
  assert (Hcomp : forall n ps, In (n, ps) (structures g) -> In ps (composites g)).
  { intros n ps Hn. unfold structures, composites in *. cbn [In] in Hn. rewrite !in_app_iff, !in_map_iff in *.
    destruct Hn as [E|[(c & E & Hc)|(e & E & He)]]; injection E as <- <-; [right; right; now left|left; eauto|right; left; eauto]. }
  assert (Hlibrary : forall x, In x (paths ++ map s_ ["date::local_days"; "date::local_seconds"; "date::time_of_day<std::chrono::seconds>"; "std::chrono::nanoseconds"; "tm"]%string) ->
            forall members, ~ In (x, members) (declared_structs cpp g)).
  { intros x Hx members Hm. assert (Hc : capital_name x).
    { apply (in_map fst) in Hm. unfold declared_structs in Hm. rewrite !map_app, !map_map, !in_app_iff, !in_map_iff in Hm. cbn [fst map In] in Hm.
      destruct Hm as [(e & <- & He)|[(c & <- & Hc)|(z & <- & [<-|[]])]]; cbn [fst]; apply Hcap; unfold structure_names; cbn [In]; rewrite in_app_iff.
      - right. right. now apply in_map.
      - right. left. now apply in_map.
      - now left. }
    assert (K : forallb (fun y => match y with a :: _ => negb (is_upper a) | [] => true end)
      (paths ++ map s_ ["date::local_days"; "date::local_seconds"; "date::time_of_day<std::chrono::seconds>"; "std::chrono::nanoseconds"; "tm"]%string) = true) by (vm_compute; reflexivity).
    rewrite forallb_forall in K. apply K in Hx. destruct Hc as (a & r & -> & Ha). rewrite Ha in Hx. discriminate. }
  intros n i ps Hn Hi. rewrite <- (ucamel_right _ _ Hi). clear i Hi. fold (cpp_ctime cpp). split.
  - intros H. remember (CNamed (ucamel n)) as T eqn:ET. revert n ps Hn ET.
    induction H as [t Hw|x members m Hs Hm Hi Hind IH]; intros n ps Hn ET; subst.
    + exfalso. destruct (Hcap n) as (a & r & E & Ha); [rewrite <- Hsn; now apply (in_map fst) in Hn|].
      cbn in Hw. rewrite E in Hw. destruct Hw as [X|[X|[_ X]]]; unfold t_tm, t_nanoseconds, t_time_of_day in X; injection X as X; subst a; discriminate Ha.
    + injection ET as ->. destruct (Hstruct _ _ _ Hn Hs _ Hm) as [(p & Hp & ->)|[Et|(c & Et)]].
      * unfold property_field in *. destruct (p_optional p) eqn:Ho; cbn [d_type d_initializer] in *; [exfalso; inversion Hind; assumption|].
        assert (Hres := HR ps p (Hcomp _ _ Hn) Hp).
        assert (Hno : forall x, In x (paths ++ map s_ ["date::local_days"; "date::local_seconds"; "date::time_of_day<std::chrono::seconds>"; "std::chrono::nanoseconds"; "tm"]%string) ->
                  indeterminate time_of_day_set (declared_structs cpp g) (CNamed x) -> without_value time_of_day_set (CNamed x)).
        { intros x Hx Hind'. inversion Hind' as [|? ms ? Hin]; subst; [assumption|]. now destruct (Hlibrary x Hx ms). }
        destruct (p_type p) as [| | | |pat|f|f|f| | | | |x|x] eqn:Et; cbn [cpp_ty default_value] in *; try discriminate Hi;
          try (match type of Hind with context [cpp_ctime cpp] => destruct (cpp_ctime cpp) eqn:Ec end; try discriminate Hi); try (exfalso; inversion Hind; assumption).
        -- apply Hno in Hind; [|apply in_app_iff; now left]. exfalso. destruct Hind as [X|[X|[_ X]]]; injection X as X; rewrite X in Hpath; vm_compute in Hpath; intuition discriminate.
        -- apply Hno in Hind; [|apply in_app_iff; right; apply mem_In; vm_compute; reflexivity]. exfalso. destruct Hind as [X|[X|[_ X]]]; discriminate X.
        -- apply Hno in Hind; [|apply in_app_iff; right; apply mem_In; vm_compute; reflexivity]. destruct Hind as [X|[X|[Ht _]]]; [discriminate X|discriminate X|]. eapply left_open_time; eauto.
        -- apply Hno in Hind; [|apply in_app_iff; right; apply mem_In; vm_compute; reflexivity]. exfalso. destruct Hind as [X|[X|[_ X]]]; discriminate X.
        -- eapply left_open_duration; eauto.
        -- cbn in Hres. unfold find_embed in Hres. destruct (find (fun e => str_eqb (e_name e) x) (g_embeds g)) as [e|] eqn:Ef; [|congruence].
           apply find_some in Ef as [He Ee]. apply str_eqb_eq in Ee.
           eapply left_open_embed; [exact Hp|exact Ho|exact He|now rewrite Et, Ee|].
           apply (IH (e_name e)); [|now rewrite Ee]. unfold structures. right. rewrite in_app_iff. right. now apply (in_map (fun e => (e_name e, e_props e))).
      * rewrite Et in Hind. exfalso; inversion Hind; assumption.
      * rewrite Et in Hind. exfalso; inversion Hind; assumption.
  - intros H. revert n Hn. induction H as [ps p Hp Ho Ht|ps p f Htod Hc Hp Ho Ht|ps p e Hp Ho He Ht _ IH]; intros n Hn;
      destruct (Hmember n ps Hn) as (members & Hin & Hall); (eapply indeterminate_member; [exact Hin|exact (Hall p Hp)| |]);
      unfold property_field; rewrite Ho; cbn [d_type d_initializer]; rewrite Ht; cbn [default_value cpp_ty]; try rewrite Hc; try reflexivity.
    + apply indeterminate_itself. right. now left.
    + apply indeterminate_itself. right. right. now split.
    + apply IH. unfold structures. right. rewrite in_app_iff. right. now apply (in_map (fun e => (e_name e, e_props e))).
Qed.
Print Assumptions C64_cpp_partial.

(** ** Examples *)

(** A structure with members of all kinds, among them an array of durations and an optional one:
    everything has a value. *)
Definition initialized_shop : jval := with_cpp
  [("classes", JArr [plain_class "Article" [("properties", obj [("size", property [("type", txt "Size")]); ("stars", property [("type", txt "integer")]); ("like", property [("type", txt "Article")])])]]);
   ("embeds", JArr [plain_class "Size" [("properties", obj [("width", property [("type", txt "float")]); ("zone", property [("type", txt "time_zone")])])]]);
   ("properties", obj [("opened", property [("type", txt "date")]); ("rented", property [("type", txt "array"); ("values", obj [("type", txt "duration")])]);
                       ("best", property [("type", txt "Article")]); ("rest", property [("type", txt "duration"); ("optional", JBool true)])])]%string.
Ltac no_left_open :=
  match goal with
  | H : In ?e (g_embeds _) |- _ => vm_compute in H; repeat (destruct H as [<-|H]; [try discriminate|]); [..|destruct H]; no_left_open
  | H : In ?p _ |- _ => vm_compute in H; repeat (destruct H as [<-|H]; [try discriminate|]); [..|destruct H]; no_left_open
  | H : left_open _ _ _ _ |- _ => inversion H; clear H; subst; no_left_open
  | _ => try discriminate
  end.
Ltac apart := let Hi := fresh in let Hj := fresh in let Hn := fresh in
  intros ? ? Hn Hi Hj; apply ucamel_upper in Hi, Hj; vm_compute in Hn; rewrite <- Hi in Hj; repeat (destruct Hn as [<-|Hn]; [vm_compute in Hj; discriminate Hj|]); destruct Hn.
Example C64_cpp_nontrivial : exists s cpp,
  document_of s initialized_shop /\ sc_cpp s = Some cpp /\ cpp_validate (sc_graph s) = Ok [] /\ graph_apart upper_camel (sc_graph s) /\
  forall n, In n ["Shop"; "Article"; "Size"]%string -> ~ indeterminate true (declared_structs cpp (sc_graph s)) (CNamed (s_ n)).
Proof.
  by_document initialized_shop s D. eexists _, _. split; [exact D|]. split; [reflexivity|]. split; [vm_compute; reflexivity|].
  match goal with |- ?P /\ _ => assert (A : P) by apart end. split; [exact A|].
  assert (T := C64_cpp_partial _ _ _ true D eq_refl ltac:(vm_compute; reflexivity) A).
  intros n [<-|[<-|[<-|[]]]] H.
  - apply (T (s_ "Shop") (s_ "Shop") _ (or_introl eq_refl)) in H; [|now apply ucamel_upper]. no_left_open.
  - apply (T (s_ "Article") (s_ "Article") _ (or_intror (or_introl eq_refl))) in H; [|now apply ucamel_upper]. no_left_open.
  - apply (T (s_ "Size") (s_ "Size") _ (or_intror (or_intror (or_introl eq_refl)))) in H; [|now apply ucamel_upper]. no_left_open.
Qed.

(** A required duration in a structure within the graph: the graph is accepted, and a variable of
    its type has an indeterminate part whatever the version of the libraries. *)
Definition rented_shop : jval := with_cpp
  [("embeds", JArr [plain_class "Rent" [("properties", obj [("lasts", property [("type", txt "duration")])])]]);
   ("properties", obj [("rent", property [("type", txt "Rent")])])]%string.
Theorem C64_duration_refuted : exists v s cpp,
  document_of s v /\ sc_cpp s = Some cpp /\ cpp_validate (sc_graph s) = Ok [] /\ graph_apart upper_camel (sc_graph s) /\
  forall set_, indeterminate set_ (declared_structs cpp (sc_graph s)) (CNamed (s_ "Shop")) /\
               indeterminate set_ (declared_structs cpp (sc_graph s)) (CNamed (s_ "Rent")).
Proof.
  exists rented_shop. by_document rented_shop s D. eexists _, _. split; [exact D|]. split; [reflexivity|]. split; [vm_compute; reflexivity|].
  match goal with |- ?P /\ _ => assert (A : P) by apart end. split; [exact A|]. intros set_.
  split.
  - eapply indeterminate_member; [right; left; reflexivity|left; reflexivity|reflexivity|].
    eapply indeterminate_member; [left; reflexivity|left; reflexivity|reflexivity|]. apply indeterminate_itself. right. now left.
  - eapply indeterminate_member; [left; reflexivity|left; reflexivity|reflexivity|]. apply indeterminate_itself. right. now left.
Qed.
Print Assumptions C64_duration_refuted.
