(** Proofs about the use of the variables in the generated Go functions (C59). *)
From Coq Require Import String List Arith NArith ZArith Bool Lia.
From Verif Require Import Base M_Naming M_Schema M_Dec M_TypeGraph M_Walk M_GoImports M_Text M_Strftime M_GoGen M_AutoID S_Scope M_Scope M_GoScope
  S_TypeGraph S_Conform S_Walk S_Strftime S_GoImports S_LangValid P_Common P_Naming P_Strftime P_GoTime P_Walk P_Scope P_BlockScope P_GoFunctions.
Import ListNotations.
Open Scope list_scope.
Local Open Scope nat_scope.

Definition plain_target (tg : target_expr) : Prop := match tg with Inside l => Forall plain_code l | _ => True end.
Lemma plain_outer x : plain_code (outer x).
Proof. exists (Outer x), x. now left. Qed.
Lemma plain_use stem n : plain_code (use stem n).
Proof. eexists _, _. now left. Qed.
Lemma plain_own x : plain_code (own x).
Proof. eexists _, _. now left. Qed.
Lemma plain_store tg : plain_target tg -> Forall plain_code (store tg).
Proof. destruct tg; cbn [store]; [|auto]. intros _. constructor; [|constructor]. eexists _, _. now right. Qed.
Lemma plain_address tg : plain_target tg -> Forall plain_code (address tg).
Proof. destruct tg; cbn [address]; [|auto]. intros _. constructor; [|constructor]. apply plain_use. Qed.
Lemma plain_outers l : Forall plain_code (outers l).
Proof. unfold outers. apply Forall_forall. intros c Hc. apply in_map_iff in Hc as (x & <- & _). apply plain_outer. Qed.
Lemma plain_type t : Forall plain_code (go_type t).
Proof. induction t; cbn [go_type]; auto using plain_outer. Qed.
Lemma plain_pattern g p : Forall plain_code (go_pattern g p).
Proof. unfold go_pattern. destruct (pattern_variable _ p); auto using plain_outer. Qed.
Lemma plain_report ref about : Forall plain_code ref -> Forall plain_code about -> Forall plain_code (go_report ref about).
Proof. intros H1 H2. unfold go_report. rewrite !Forall_app. repeat split; auto using plain_outer, plain_own. Qed.

Ltac plain := solve [ repeat first
  [ assumption | apply Forall_nil | apply plain_store; assumption | apply plain_address; assumption | apply plain_type | apply plain_pattern | apply plain_outers
  | apply plain_report | rewrite Forall_app; split
  | apply Forall_cons; [first [apply plain_outer | apply plain_use | apply plain_own | (eexists _, _; left; reflexivity) | (eexists _, _; right; reflexivity)]|] ] ].
Ltac no_tops := rewrite tops_plain by plain; intros [].
Ltac other_name E := fail.
Ltac other := let t := fresh in let E := fresh in intros t E; first [discriminate E | injection E; intros; discriminate | other_name E].
Ltac rd := first
  [ apply reads_here
  | assumption
  | apply reads_block; rd
  | apply reads_later; [other|rd]
  | apply reads_app_r; [no_tops|rd]
  | apply reads_app_l; rd ].
Ltac ar := repeat (rewrite <- ?app_assoc; cbn [app]; first
  [ apply all_read_nil
  | assumption
  | apply all_read_declare; [rd|]
  | apply all_read_mention
  | apply all_read_store
  | apply all_read_block
  | apply all_read_app; [assumption|]
  | apply all_read_app; [apply all_read_plain; plain|]
  | apply all_read_plain; plain ]).

Section Uses.
  Variable g : graph.
  Variable registry : cls -> list code.
  Hypothesis Hregistry : forall c, Forall plain_code (registry c).

  Lemma plain_registries : (forall c, Forall plain_code (registry c)) -> forall l, Forall plain_code (flat_map registry l).
  Proof. intros H l. apply Forall_flat_map, Forall_forall. auto. Qed.
  Lemma all_read_bounds b ref n set : Forall plain_code ref -> all_read set -> all_read (go_bounds b ref n set).
  Proof. intros H1 H2. unfold go_bounds. destruct (b_min b), (b_max b); cbn [app]; ar. Qed.

  Lemma parse_reads t value tg ref n x u : Forall plain_code value -> In (Mention u x) value -> reads x (fst (go_parse g registry t value tg ref n)).
  Proof.
    intros Hv Hx.
    assert (Hr : forall l, reads x (value ++ l)) by (intros l; apply reads_app_l; apply (reads_in x value u Hx); no_tops).
    destruct t as [|b|b|pt|pt|fm|fm|fm| | |t mn mx|t|c|e]; cbn [go_parse fst]; unfold go_cast; rewrite <- ?app_assoc; auto.
    - destruct (go_parse g registry t _ _ _ _) as [item n']. cbn [fst]. rewrite <- ?app_assoc. auto.
    - destruct (go_parse g registry t _ _ _ _) as [item n']. cbn [fst]. rewrite <- ?app_assoc. auto.
    - cbn [app]. apply reads_later; [discriminate|]. auto.
  Qed.

  Lemma parse_tops t value tg ref n x : Forall plain_code value -> Forall plain_code ref -> plain_target tg ->
    In x (keys (tops (fst (go_parse g registry t value tg ref n)))) -> exists stem, In stem ["cast"; "fcast"; "ok"]%string /\ x = auto stem n.
  Proof.
    intros Hv Hr Ht.
    assert (K : forall cast types l, In cast ["cast"; "fcast"]%string -> tops l = [] ->
      In x (keys (tops (go_cast cast types value ref n ++ l))) -> exists stem, In stem ["cast"; "fcast"; "ok"]%string /\ x = auto stem n).
    { intros cast types l Hc Hl H. unfold go_cast in H. rewrite !tops_app in H. rewrite Hl, (tops_plain value), (tops_plain (outers types)) in H by plain.
      cbn in H. destruct H as [<-|[<-|[]]]; [exists cast; split; [cbn in *; tauto|reflexivity]|exists "ok"%string; split; [cbn; tauto|reflexivity]]. }
    destruct t as [|b|b|pt|pt|fm|fm|fm| | |t mn mx|t|c|e]; cbn [go_parse fst].
    1-10,13: apply K; [cbn; tauto|reflexivity].
    - destruct (go_parse g registry t _ _ _ _) as [item n']. cbn [fst]. apply K; [cbn; tauto|]. destruct mn, mx; reflexivity.
    - destruct (go_parse g registry t _ _ _ _) as [item n']. cbn [fst]. apply K; [cbn; tauto|]. reflexivity.
    - intros H. rewrite tops_plain in H; [destruct H|]. assert (HRs := plain_registries Hregistry (embed_references g e)).
      apply Forall_cons; [apply plain_outer|]. rewrite Forall_app; split; [plain|]. rewrite Forall_app; split; [exact HRs|]. plain.
  Qed.

  Lemma parse_all_read t : forall value tg ref n, Forall plain_code value -> Forall plain_code ref -> plain_target tg ->
    all_read (fst (go_parse g registry t value tg ref n)).
  Proof.
    induction t as [|b|b|pt|pt|fm|fm|fm| | |t IH mn mx|t IH|c|e]; intros value tg ref n Hv Hr Ht; cbn [go_parse fst]; unfold go_cast.
    - ar.
    - destruct b as [mn emn mx emx]. unfold go_bounds. cbn [b_min b_max]. destruct mn, mx; ar.
    - destruct b as [mn emn mx emx]. unfold go_bounds. cbn [b_min b_max]. destruct mn, mx; ar.
    - destruct pt; ar.
    - destruct pt; ar.
    - ar.
    - ar.
    - ar.
    - ar.
    - ar.
    - assert (HI := parse_reads t [use "cast" n; use "i" n] (Inside [use "target" n; use "i" n]) (ref ++ [outer pkg_strconv; use "i" n]) (S n) (auto "i" n) _ ltac:(plain) ltac:(right; left; reflexivity)).
      specialize (IH [use "cast" n; use "i" n] (Inside [use "target" n; use "i" n]) (ref ++ [outer pkg_strconv; use "i" n]) (S n) ltac:(plain) ltac:(plain) ltac:(cbn; plain)).
      destruct (go_parse g registry t _ _ _ _) as [item n']. cbn [fst] in *. destruct mn, mx; ar.
    - set (tg' := match t with TEmbed _ => Variable_ "item" n | _ => Inside [use "target" n; use "k" n] end).
      assert (Htg : plain_target tg') by (unfold tg'; destruct t; cbn; try exact I; plain).
      assert (HI := parse_reads t [use "cast" n; use "k" n] tg' (ref ++ [use "k" n]) (S n) (auto "k" n) _ ltac:(plain) ltac:(right; left; reflexivity)).
      assert (HT := parse_tops t [use "cast" n; use "k" n] tg' (ref ++ [use "k" n]) (S n) (auto "item" n) ltac:(plain) ltac:(plain) Htg).
      specialize (IH [use "cast" n; use "k" n] tg' (ref ++ [use "k" n]) (S n) ltac:(plain) ltac:(plain) Htg).
      destruct (go_parse g registry t _ _ _ _) as [item n']. cbn [fst] in *.
      assert (Hitem : ~ In (auto "item" n) (keys (tops item))).
      { intros H. apply HT in H as (stem & [<-|[<-|[<-|[]]]] & E); discriminate E. }
      assert (Hk : forall l, reads (auto "k" n) (item ++ l)) by (intros l; now apply reads_app_l).
      assert (Hit : forall l u, reads (auto "item" n) (item ++ Mention u (auto "item" n) :: l)) by (intros l u; apply reads_app_r; [exact Hitem|apply reads_here]).
      destruct t; ar. apply all_read_declare; [apply Hit|ar].
    - destruct (find_class g c) as [c'|]; [specialize (Hregistry c')|]; ar.
    - assert (HRs := plain_registries Hregistry (embed_references g e)). ar.
  Qed.

  Lemma property_all_read p n : all_read (fst (go_parse_property g registry p n)) /\ reads (s_ "cast") (fst (go_parse_property g registry p n)).
  Proof.
    unfold go_parse_property. set (intermediate := p_optional p && negb (is_pointer_type (p_type p))).
    set (tg := if intermediate then Variable_ "target" n else Inside [own "target"]).
    assert (Htg : plain_target tg) by (unfold tg; destruct intermediate; cbn; [exact I|plain]).
    assert (HI := parse_reads (p_type p) [use "value" n] tg [own "ref"] (S n) (auto "value" n) _ ltac:(plain) ltac:(left; reflexivity)).
    assert (HT := parse_tops (p_type p) [use "value" n] tg [own "ref"] (S n) (auto "target" n) ltac:(plain) ltac:(plain) Htg).
    assert (IH := parse_all_read (p_type p) [use "value" n] tg [own "ref"] (S n) ltac:(plain) ltac:(plain) Htg).
    destruct (go_parse g registry (p_type p) _ _ _ _) as [parsing n']. cbn [fst] in *.
    assert (Ht : ~ In (auto "target" n) (keys (tops parsing))).
    { intros H. apply HT in H as (stem & [<-|[<-|[<-|[]]]] & E); discriminate E. }
    assert (Hit : forall l u, reads (auto "target" n) (parsing ++ Mention u (auto "target" n) :: l)) by (intros l u; apply reads_app_r; [exact Ht|apply reads_here]).
    split; [|destruct (p_optional p); apply reads_here].
    destruct (p_optional p); [destruct intermediate|]; ar. apply all_read_declare; [apply Hit|ar].
  Qed.
  Lemma properties_all_read ps : forall n, all_read (go_parse_properties g registry ps n) /\ (ps <> [] -> reads (s_ "cast") (go_parse_properties g registry ps n)).
  Proof.
    induction ps as [|p ps IH]; intros n; cbn [go_parse_properties]; [split; [constructor|congruence]|].
    destruct (property_all_read p n) as [H1 H2]. destruct (go_parse_property g registry p n) as [parsing n']. cbn [fst] in *.
    destruct (IH n') as [H3 _]. split; [ar|]. intros _. now apply reads_app_l.
  Qed.
End Uses.

Lemma composite_uses g is_class references ps : go_uses_variables (go_parse_composite g is_class references ps).
Proof.
  unfold go_uses_variables. cbn [go_parse_composite fn_body]. unfold go_preconditions, go_failed_cast.
  destruct (properties_all_read g (fun c => [go_mention_registry c]) (fun c => ltac:(plain)) ps 0) as [H1 H2].
  destruct ps as [|p ps].
  - clear H2. destruct is_class; ar.
  - assert (H3 := H2 ltac:(discriminate)). clear H2. revert H1 H3. generalize (go_parse_properties g (fun c => [go_mention_registry c]) (p :: ps) 0). intros l H1 H3. destruct is_class; ar.
Qed.

Lemma other_role (x : str) r r' : In r roles -> In r' roles -> r <> r' -> x ++ s_ r = x ++ s_ r' -> False.
Proof. intros Hr Hr' Hne H. apply role_eq in H as [H _]; [contradiction|assumption..]. Qed.
Lemma cast_role c r : In r roles -> camel (c_plural c) ++ s_ r = s_ "cast" -> False.
Proof. intros Hr H. symmetry in H. revert H. apply own_not_role; [apply mem_In; reflexivity|exact Hr]. Qed.
Ltac other_name E ::= injection E as _ E; revert E; first [refine (other_role _ _ _ _ _ _); [cbn; tauto|cbn; tauto|discriminate] | refine (cast_role _ _ _); cbn; tauto].

Lemma allocate_uses g c : all_read (go_allocate g c) /\ reads (s_ "cast") (go_allocate g c).
Proof.
  split.
  - unfold go_allocate. destruct (c_id_pattern c) as [p|]; unfold let_registry, use_registry, set_registry; cbn [fst snd go_of_registry]; ar.
  - unfold go_allocate, let_registry, use_registry, set_registry; cbn [fst snd go_of_registry]. rd.
Qed.
Lemma fill_uses c : all_read (go_fill c).
Proof. unfold go_fill. unfold use_registry. cbn [fst snd go_of_registry]. ar. Qed.

Lemma graph_uses g : g_classes g <> [] \/ g_props g <> [] -> go_uses_variables (go_parse_graph g).
Proof.
  intros Hne. unfold go_uses_variables. cbn [go_parse_graph fn_body]. unfold go_preconditions, go_failed_cast.
  destruct (properties_all_read g (fun c => [own "target"]) (fun c => ltac:(plain)) (g_props g) 0) as [H1 H2].
  revert H1 H2. generalize (go_parse_properties g (fun c => [own "target"]) (g_props g) 0) as code. intros code H1 H2.
  assert (HA : all_read (flat_map (go_allocate g) (g_classes g))).
  { clear. induction (g_classes g) as [|c l IH]; [constructor|]. cbn [flat_map]. apply all_read_app; [apply allocate_uses|exact IH]. }
  assert (HF : all_read (flat_map go_fill (g_classes g))).
  { clear. induction (g_classes g) as [|c l IH]; [constructor|]. cbn [flat_map]. apply all_read_app; [apply fill_uses|exact IH]. }
  assert (HE : Forall plain_code match g_classes g with [] => [] | _ => [own "errors"] end) by (destruct (g_classes g); plain).
  assert (HC : reads (s_ "cast") (flat_map (go_allocate g) (g_classes g) ++ match g_classes g with [] => [] | _ => [own "errors"] end ++ flat_map go_fill (g_classes g) ++ code)).
  { destruct (g_classes g) as [|c l].
    - cbn [flat_map app]. apply H2. destruct Hne; congruence.
    - cbn [flat_map]. rewrite <- app_assoc. apply reads_app_l. apply allocate_uses. }
  revert HA HF HE HC. generalize (flat_map (go_allocate g) (g_classes g)) as la. generalize (flat_map go_fill (g_classes g)) as lf.
  generalize (match g_classes g with [] => [] | _ => [own "errors"] end) as le. intros le lf la HA HF HE HC. clear H2. ar.
Qed.

Lemma parsers_use g f : g_classes g <> [] \/ g_props g <> [] -> In f (go_parsers g) -> go_uses_variables f.
Proof.
  intros Hne Hf. unfold go_parsers in Hf. rewrite !in_app_iff in Hf. destruct Hf as [Hf|[Hf|[<-|[]]]].
  - apply in_map_iff in Hf as (ck & <- & _). apply composite_uses.
  - apply in_map_iff in Hf as (ck & <- & _). apply composite_uses.
  - now apply graph_uses.
Qed.

(** * Serialization *)

Fixpoint laid_out (t : ty) : Prop :=
  match t with
  | TDate f | TTime f | TDatetime f => M_GoGen.layout f <> []
  | TArray u _ _ | TMap u => laid_out u
  | _ => True
  end.

Definition loop_name (x : str) : Prop := exists stem m, In stem ["slice"; "i"; "v"; "k"]%string /\ x = auto stem m.
Ltac other_name E ::= match goal with H : loop_name ?x |- _ => destruct H as (? & ? & [<-|[<-|[<-|[<-|[]]]]] & ->); first [discriminate E | injection E; intros; discriminate] end.

Lemma serialize_reads t value target n x u : laid_out t -> Forall plain_code value -> In (Mention u x) value -> loop_name x ->
  reads x (fst (go_serialize t value target n)).
Proof.
  intros HL Hv Hx Hn.
  assert (Hr : forall l, reads x (value ++ l)) by (intros l; apply reads_app_l; apply (reads_in x value u Hx); no_tops).
  destruct t as [|b|b|pt|pt|fm|fm|fm| | |t mn mx|t|c|e]; cbn [go_serialize fst laid_out] in *; auto.
  1-3: destruct (M_GoGen.layout fm); [congruence|auto].
  - apply reads_later; [discriminate|auto].
  - destruct (go_serialize t _ _ _) as [item n']. cbn [fst]. apply reads_later; [discriminate|auto].
  - destruct (go_serialize t _ _ _) as [item n']. cbn [fst app].
    do 3 (apply reads_later; [other|]). apply Hr.
  - apply reads_later; [discriminate|auto].
Qed.
Lemma serialize_target t value target n m u : Forall plain_code value -> Forall plain_code target -> In (Mention u (auto "k" m)) target ->
  reads (auto "k" m) (fst (go_serialize t value target n)).
Proof.
  intros Hv Ht Hx. assert (Hr : reads (auto "k" m) target) by (apply (reads_in _ _ u Hx); no_tops).
  destruct t as [|b|b|pt|pt|fm|fm|fm| | |t mn mx|t|c|e]; cbn [go_serialize fst] in *.
  1-5,9,13: apply reads_app_r; [no_tops|exact Hr].
  1-3: destruct (M_GoGen.layout fm); apply reads_app_r; [no_tops|exact Hr|no_tops|exact Hr].
  1,4: apply reads_later; [discriminate|]; apply reads_app_r; [no_tops|exact Hr].
  - destruct (go_serialize t _ _ _) as [item n']. cbn [fst app]. apply reads_later; [discriminate|].
    apply reads_app_r; [no_tops|]. apply reads_later; [other|]. apply reads_app_r; [no_tops|]. do 6 (apply reads_later; [other|]). exact Hr.
  - destruct (go_serialize t _ _ _) as [item n']. cbn [fst app]. do 3 (apply reads_later; [other|]).
    apply reads_app_r; [no_tops|]. do 4 (apply reads_later; [other|]). exact Hr.
Qed.

Lemma serialize_all_read t : forall value target n, laid_out t -> Forall plain_code value -> Forall plain_code target ->
  all_read (fst (go_serialize t value target n)).
Proof.
  induction t as [|b|b|pt|pt|fm|fm|fm| | |t IH mn mx|t IH|c|e]; intros value target n HL Hv Ht; cbn [go_serialize fst laid_out] in *.
  1-5,9-10,13-14: ar.
  1-3: destruct (M_GoGen.layout fm); ar.
  - assert (HI := fun x H => serialize_reads t [use "slice" n; use "i" n] [use "target" n; use "i" n] (S n) x (Auto x) HL ltac:(plain) H).
    specialize (IH [use "slice" n; use "i" n] [use "target" n; use "i" n] (S n) HL ltac:(plain) ltac:(plain)).
    destruct (go_serialize t _ _ _) as [item n']. cbn [fst] in *.
    assert (Hs : reads (auto "slice" n) item) by (apply HI; [left; reflexivity|exists "slice"%string, n; split; [now left|reflexivity]]). clear HI. ar.
  - assert (HV := serialize_reads t [use "v" n] [use "target" n; use "k" n] (S n) (auto "v" n) _ HL ltac:(plain) ltac:(left; reflexivity) ltac:(exists "v"%string, n; split; [right; right; now left|reflexivity])).
    assert (HK := serialize_target t [use "v" n] [use "target" n; use "k" n] (S n) n _ ltac:(plain) ltac:(plain) ltac:(right; left; reflexivity)).
    specialize (IH [use "v" n] [use "target" n; use "k" n] (S n) HL ltac:(plain) ltac:(plain)).
    destruct (go_serialize t _ _ _) as [item n']. cbn [fst] in *. ar.
Qed.

Lemma serialize_properties_all_read ps : (forall p, In p ps -> laid_out (p_type p)) -> forall n, all_read (go_serialize_properties ps n).
Proof.
  induction ps as [|p ps IH]; intros HL n; cbn [go_serialize_properties]; [constructor|]. unfold go_serialize_property.
  assert (H := serialize_all_read (p_type p) [own "instance"] [own "target"] n (HL p (or_introl eq_refl)) ltac:(plain) ltac:(plain)).
  destruct (go_serialize _ _ _ _) as [ser n']. cbn [fst] in H. specialize (IH (fun q Hq => HL q (or_intror Hq)) n').
  destruct (p_optional p); ar.
Qed.
Lemma registry_uses c : all_read (go_serialize_registry c).
Proof. unfold go_serialize_registry. ar. Qed.

Lemma serializers_use g f : (forall ps p, In ps (composites g) -> In p ps -> laid_out (p_type p)) -> In f (go_serializers g) -> go_uses_variables f.
Proof.
  intros HL Hf. assert (HS : forall ps, In ps (composites g) -> all_read (go_serialize_properties ps 0)) by (intros ps Hps; apply serialize_properties_all_read; eauto).
  unfold go_serializers in Hf. rewrite !in_app_iff in Hf. unfold go_uses_variables. destruct Hf as [Hf|[Hf|[<-|[]]]].
  - apply in_map_iff in Hf as (c & <- & Hc). cbn [go_serializer fn_body]. unfold go_start. specialize (HS (c_props c) ltac:(apply in_or_app; left; now apply in_map)). ar.
  - apply in_map_iff in Hf as (e & <- & He). cbn [go_serializer fn_body]. unfold go_start. specialize (HS (e_props e) ltac:(apply in_or_app; right; apply in_or_app; left; now apply in_map)). ar.
  - cbn [go_serialize_graph fn_body]. unfold go_start. specialize (HS (g_props g) ltac:(apply in_or_app; right; apply in_or_app; right; now left)).
    assert (HA : all_read (flat_map go_serialize_registry (g_classes g))).
    { clear. induction (g_classes g) as [|c l IH]; [constructor|]. cbn [flat_map]. apply all_read_app; [apply registry_uses|exact IH]. }
    ar.
Qed.

(** * Layouts *)

Lemma conv_nonempty f : format_over all_letters f -> f <> [] -> conv f <> [].
Proof.
  intros F Hne E. inversion F as [|c s Hc Fs|c s HI Fs]; subst; [congruence| |].
  - rewrite conv_text in E by exact Hc. discriminate.
  - rewrite conv_dir in E. apply app_eq_nil in E as [E _]. letters_cases HI; vm_compute in E; discriminate.
Qed.
Lemma laid_out_inside t : (forall n u f, inside t n u -> has_format u f -> M_GoGen.layout f <> []) -> laid_out t.
Proof.
  induction t; intros H; cbn [laid_out]; try exact I.
  - apply (H 0 _ format (inside_itself _)). now left.
  - apply (H 0 _ format (inside_itself _)). right. now left.
  - apply (H 0 _ format (inside_itself _)). right. now right.
  - apply IHt. intros n u f Hu. apply (H (S n)). now constructor.
  - apply IHt. intros n u f Hu. apply (H (S n)). now constructor.
Qed.

(** Decidable: what is not read *)
Fixpoint does_read (x : str) (c : code) : bool :=
  match c with
  | Mention _ y => str_eqb x y
  | Block b => (fix all (l : list code) : bool :=
                  match l with [] => false | c :: l' => does_read x c || (match c with Declare _ y => negb (str_eqb x y) | _ => true end && all l') end) b
  | _ => false
  end.
Fixpoint do_read (x : str) (l : list code) : bool :=
  match l with [] => false | c :: l' => does_read x c || (match c with Declare _ y => negb (str_eqb x y) | _ => true end && do_read x l') end.
Lemma does_read_block x b : does_read x (Block b) = do_read x b.
Proof. induction b as [|c b IH]; [reflexivity|]. cbn [do_read]. rewrite <- IH. reflexivity. Qed.
Lemma reads_do x l : reads x l -> do_read x l = true.
Proof.
  induction 1 as [t l|b l _ IH|a l Ha _ IH]; cbn [do_read].
  - cbn [does_read]. now rewrite str_eqb_refl.
  - apply orb_true_iff. left. now rewrite does_read_block.
  - apply orb_true_iff. right. apply andb_true_iff. split; [|exact IH]. destruct a as [t y|t y|t y|b]; try reflexivity.
    apply negb_true_iff. apply str_eqb_neq. intros ->. now apply (Ha t).
Qed.
Fixpoint unread (c : code) : bool :=
  match c with
  | Block b => (fix all (l : list code) : bool :=
                  match l with [] => false | c :: l' => unread c || match c with Declare _ x => negb (do_read x l') | _ => false end || all l' end) b
  | _ => false
  end.
Fixpoint some_unread (l : list code) : bool :=
  match l with [] => false | c :: l' => unread c || match c with Declare _ x => negb (do_read x l') | _ => false end || some_unread l' end.
Lemma unread_block b : unread (Block b) = some_unread b.
Proof. induction b as [|c b IH]; [reflexivity|]. cbn [some_unread]. rewrite <- IH. reflexivity. Qed.
Lemma all_read_none l : all_read l -> some_unread l = false.
Proof.
  induction 1 as [|t x l Hr _ IH|t x l _ IH|t x l _ IH|b l _ IHb _ IH]; cbn [some_unread]; rewrite ?unread_block, ?orb_false_iff; cbn [unread]; try (now repeat split).
  - rewrite (reads_do _ _ Hr). now repeat split.
Qed.
