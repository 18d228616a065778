(** The command-line tool (C46) and the location of syntax errors (C47). *)
From Coq Require Import String List Arith NArith ZArith Bool Lia.
From Verif Require Import Base M_Naming M_Schema M_Validate M_LangValid M_Main S_Main P_Main T_Validate T_LangValid T_EndToEnd.
Import ListNotations.
Open Scope list_scope.
Local Open Scope nat_scope.

Section Main.
  Variable re_ok : str -> bool.
  Variable load : str -> jval + nat.
  Variable encodable : str -> bool.
  Variable locate : str -> path.
  Variable shown : str -> str.
  Variable code : lang -> str -> schema -> res str.

  Notation run := (run re_ok load encodable locate shown code).

  (** The schema [s] is read from the file at the path [arg]. *)
  Definition reads (fs : files) (arg : str) (s : schema) : Prop :=
    exists text doc v, fs (locate arg) = Some (NFile text) /\ unified text doc /\ load doc = inl v /\
      schema_from_mapping re_ok true v (shown arg ++ s_ "#") = Ok s.

  Lemma loaded w arg s : load_schema re_ok load locate shown w arg = inl (Some s) -> reads (w_files w) arg s.
  Proof.
    unfold load_schema. destruct arg as [|c a]; [discriminate|]. destruct (w_files w (locate (c :: a))) as [[|text]|] eqn:E; try discriminate.
    unfold schema_from_text. destruct (load (translate text)) as [v|pos] eqn:L.
    - destruct (schema_from_mapping _ _ _ _) as [s'|e] eqn:P; try discriminate. intros H. injection H as <-.
      exists text, (translate text), v. split; [exact E|]. split; [apply translate_unified|]. now split.
    - destruct (nth_error _ _) as [line|]; [destruct (length line <=? 120)|]; discriminate.
  Qed.
  Lemma reads_loaded w arg s : arg <> [] -> reads (w_files w) arg s -> load_schema re_ok load locate shown w arg = inl (Some s).
  Proof.
    intros N (text & doc & v & E & U & L & P). unfold load_schema. destruct arg as [|c a]; [contradiction|]. rewrite E.
    unfold schema_from_text. rewrite <- (unified_fun _ _ U), L, P. reflexivity.
  Qed.

  (** What the program does with a loaded schema. *)
  Lemma generate_inv l w s arg w' r : tree (w_files w) -> w_files w (locate arg) = Some NDir ->
    generate encodable locate shown code l w s arg = (w', r) ->
    (exists errs, r = Exit 1 /\ errs <> [] /\ validate_for l (sc_graph s) = Ok errs /\ w' = complain w (MInvalid errs)) \/
    (r = Exit 1 /\ lacks_settings l s = true /\ validate_for l (sc_graph s) = Ok [] /\ w' = complain w MNoSettings) \/
    (exists e, r = Raised e /\ w' = w) \/
    (fits l s /\ exists codes, generate_codes code l s (filenames l) = Ok codes /\
       ((exists fs, write_all encodable (w_files w) (locate arg) codes = Did fs /\ w' = announce (with_files w fs) (shown arg) /\ r = Exit 0) \/
        (exists fs e, write_all encodable (w_files w) (locate arg) codes = Failed fs e /\ w' = with_files w fs /\ r = Raised e))).
  Proof.
    intros T D. unfold generate. rewrite D. destruct (validate_for l (sc_graph s)) as [[|e errs]|e] eqn:V.
    - destruct (lacks_settings l s) eqn:Ls.
      + intros H. injection H as <- <-. right. left. auto.
      + destruct (generate_codes code l s (filenames l)) as [codes|e] eqn:G.
        * assert (M : match l with Cpp => Did (w_files w) | _ => mkdirs (w_files w) (locate arg) end = Did (w_files w)).
          { destruct l; try reflexivity; destruct (locate arg); cbn [mkdirs]; now rewrite D. }
          rewrite M. intros H. right. right. right. split; [apply fits_ok; now split|]. exists codes. split; [reflexivity|].
          destruct (write_all _ _ _ _) as [fs|fs e] eqn:W; injection H as <- <-; [left | right]; eauto.
        * intros H. injection H as <- <-. right. right. left. eauto.
    - intros H. injection H as <- <-. left. eexists. repeat split; auto. discriminate.
    - intros H. injection H as <- <-. right. right. left. eauto.
  Qed.

  (** The exit code 0 means that the schema was read, is valid for the language and
      states its settings, and that exactly the announced files were written. *)
  Theorem C46_success l schema_arg outdir_arg w w' : tree (w_files w) ->
    run l schema_arg outdir_arg w = (w', Exit 0) ->
    exists s codes, reads (w_files w) schema_arg s /\ fits l s /\
      map fst codes = map s_ (announced l) /\ (forall name text, In (name, text) codes -> code l name s = Ok text) /\
      written (locate outdir_arg) codes (w_files w) (w_files w') /\
      w_out w' = w_out w ++ [shown outdir_arg] /\ w_err w' = w_err w.
  Proof.
    intros T. unfold M_Main.run. destruct (load_schema _ _ _ _ w schema_arg) as [os|[w1 r1]] eqn:L.
    2: { unfold load_schema in L. destruct schema_arg as [|c a]; [discriminate|].
         destruct (w_files w (locate (c :: a))) as [[|text]|]; [injection L as <- <-; discriminate| |injection L as <- <-; discriminate].
         destruct (schema_from_text _ _ _ _ _); [discriminate|]. injection L as <- <-. discriminate. }
    destruct outdir_arg as [|c a] eqn:Ea; [discriminate|]. rewrite <- Ea in *. clear Ea c a.
    destruct (mkdirs (w_files w) (locate outdir_arg)) as [fs|fs e] eqn:M; [|discriminate].
    destruct os as [s|]; [|discriminate]. apply loaded in L. destruct (mkdirs_Did _ _ _ M) as [M1 M2]. destruct (M2 T) as [T1 D1].
    intros G. apply generate_inv in G; [|exact T1 | exact D1].
    destruct G as [(errs & E & _) | [(E & _) | [(e & E & _) | (F & codes & C & G)]]]; try discriminate.
    destruct G as [(fs' & W & -> & _) | (fs' & e & _ & _ & E)]; [|discriminate]. cbn [w_files with_files] in W.
    destruct (generate_codes_Ok _ _ _ _ _ C) as [C1 C2].
    apply write_all_Did in W; [|rewrite C1; apply filenames_distinct]. destruct W as [W1 W2].
    exists s, codes. split; [exact L|]. split; [exact F|]. split; [now rewrite C1, filenames_announced|]. split; [exact C2|].
    split; [|split; reflexivity]. cbn [w_files announce with_files]. split; [|split].
    - intros name text Hin. now apply W1.
    - intros p Hp. rewrite W2; [eapply tree_above; eauto|]. intros name text _ ->. apply above_length in Hp. cbn in Hp. lia.
    - intros p Hp Hn. rewrite W2 by assumption. destruct (M1 p) as [E | (A & _)]; [exact E | contradiction].
  Qed.

  (** Conversely, nothing else makes the program fail. *)
  Theorem C46_complete l schema_arg outdir_arg w s : tree (w_files w) ->
    schema_arg <> [] -> outdir_arg <> [] -> reads (w_files w) schema_arg s -> fits l s ->
    can_make (locate outdir_arg) (w_files w) ->
    (forall name, In name (announced l) ->
       w_files w (s_ name :: locate outdir_arg) <> Some NDir /\
       exists text, code l (s_ name) s = Ok text /\ encodable text = true) ->
    exists w', run l schema_arg outdir_arg w = (w', Exit 0).
  Proof.
    intros T Hs Ho R F C H. unfold M_Main.run. rewrite (reads_loaded _ _ _ Hs R).
    destruct outdir_arg as [|c a] eqn:Ea; [contradiction|]. rewrite <- Ea in *. clear Ea c a.
    destruct (mkdirs_works _ _ T C) as (fs & M). rewrite M. destruct (mkdirs_Did _ _ _ M) as [M1 M2]. destruct (M2 T) as [T1 D1].
    destruct (generate_codes_works code l s (filenames l)) as (codes & G).
    { intros n Hn. rewrite filenames_announced in Hn. apply in_map_iff in Hn. destruct Hn as (n' & <- & Hn). destruct (H n' Hn) as (_ & t & E & _). eauto. }
    destruct (generate_codes_Ok _ _ _ _ _ G) as [G1 G2].
    destruct (write_all_works encodable (locate outdir_arg) codes fs D1) as (fs' & W).
    { intros name text Hin. assert (Hn : In name (filenames l)) by (rewrite <- G1; apply in_map_iff; exists (name, text); auto).
      rewrite filenames_announced in Hn. apply in_map_iff in Hn. destruct Hn as (n' & <- & Hn). destruct (H n' Hn) as (N & t & E & Et).
      specialize (G2 _ _ Hin). rewrite E in G2. injection G2 as <-. split; [|exact Et].
      destruct (M1 (s_ n' :: locate outdir_arg)) as [-> | (A & _)]; [exact N|]. apply above_length in A. cbn in A. lia. }
    destruct (generate encodable locate shown code l (with_files w fs) s outdir_arg) as [w' r] eqn:E. assert (E' := E).
    apply generate_inv in E'; [|exact T1 | exact D1]. apply fits_ok in F. destruct F as [F1 F2].
    destruct E' as [(errs & _ & N & V & _) | [(_ & Ls & _) | [(e & -> & ->) | (_ & codes' & C' & G')]]].
    - rewrite F1 in V. injection V as <-. contradiction.
    - congruence.
    - exfalso. revert E. unfold generate. cbn [w_files with_files]. rewrite D1, F1, F2, G.
      assert (M' : match l with Cpp => Did fs | _ => mkdirs fs (locate outdir_arg) end = Did fs).
      { destruct l; try reflexivity; destruct (locate outdir_arg); cbn [mkdirs]; now rewrite D1. }
      rewrite M', W. discriminate.
    - rewrite G in C'. injection C' as <-. destruct G' as [(fs1 & _ & _ & ->) | (fs1 & e & W' & _)]; [eauto|]. cbn [w_files with_files] in W'. congruence.
  Qed.

  (** The other exit code is 1: the reason is printed and no file is made, changed or
      removed.  The output directory, and those above it, may have been made. *)
  Theorem C46_failure_partial l schema_arg outdir_arg w w' n : tree (w_files w) ->
    run l schema_arg outdir_arg w = (w', Exit n) -> n <> 0 ->
    n = 1 /\ w_out w' = w_out w /\ only_directories (locate outdir_arg) (w_files w) (w_files w') /\
    exists m, w_err w' = w_err w ++ [m] /\
      match m with
      | MNoSchema => w_files w (locate schema_arg) = None
      | MNotAFile => w_files w (locate schema_arg) = Some NDir
      | MInvalid errs => exists s, reads (w_files w) schema_arg s /\ errs <> [] /\ ~ fits l s
      | MNoSettings => exists s, reads (w_files w) schema_arg s /\ ~ fits l s
      end.
  Proof.
    intros T. unfold M_Main.run. destruct (load_schema _ _ _ _ w schema_arg) as [os|[w1 r1]] eqn:L.
    2: { unfold load_schema in L. destruct schema_arg as [|c a]; [discriminate|].
         destruct (w_files w (locate (c :: a))) as [[|text]|] eqn:E.
         - injection L as <- <-. intros H _. injection H as <- <-. split; [reflexivity|]. split; [reflexivity|]. split; [intros p; now left|]. exists MNotAFile. auto.
         - destruct (schema_from_text _ _ _ _ _); [discriminate|]. injection L as <- <-. discriminate.
         - injection L as <- <-. intros H _. injection H as <- <-. split; [reflexivity|]. split; [reflexivity|]. split; [intros p; now left|]. exists MNoSchema. auto. }
    destruct outdir_arg as [|c a] eqn:Ea; [discriminate|]. rewrite <- Ea in *. clear Ea c a.
    destruct (mkdirs (w_files w) (locate outdir_arg)) as [fs|fs e] eqn:M; [|discriminate].
    destruct os as [s|]; [|discriminate]. apply loaded in L. destruct (mkdirs_Did _ _ _ M) as [M1 M2]. destruct (M2 T) as [T1 D1].
    intros G Hn. apply generate_inv in G; [|exact T1 | exact D1].
    destruct G as [(errs & E & N & V & ->) | [(E & Ls & V & ->) | [(e & E & _) | (F & codes & C & G)]]].
    - injection E as ->. split; [reflexivity|]. split; [reflexivity|]. split; [exact M1|]. exists (MInvalid errs). split; [reflexivity|].
      exists s. split; [exact L|]. split; [exact N|]. rewrite fits_ok, V. intros [F _]. now injection F as ->.
    - injection E as ->. split; [reflexivity|]. split; [reflexivity|]. split; [exact M1|]. exists MNoSettings. split; [reflexivity|].
      exists s. split; [exact L|]. rewrite fits_ok, Ls. intros [_ F]. discriminate.
    - discriminate.
    - destruct G as [(fs' & _ & _ & E) | (fs' & e & _ & _ & E)]; [injection E as ->; contradiction | discriminate].
  Qed.

  (** If no schema can be read from the file, nothing at all is changed. *)
  Theorem C46_rejected_unchanged l schema_arg outdir_arg w w' r : schema_arg <> [] ->
    (forall s, ~ reads (w_files w) schema_arg s) ->
    run l schema_arg outdir_arg w = (w', r) ->
    w_files w' = w_files w /\ w_out w' = w_out w /\ r <> Exit 0.
  Proof.
    intros Hs R. unfold M_Main.run. destruct (load_schema _ _ _ _ w schema_arg) as [[s|]|[w1 r1]] eqn:L.
    - apply loaded in L. destruct (R s L).
    - exfalso. unfold load_schema in L. destruct schema_arg as [|c a]; [contradiction|].
      destruct (w_files w (locate (c :: a))) as [[|text]|]; try discriminate. destruct (schema_from_text _ _ _ _ _); discriminate.
    - intros H. injection H as -> ->. unfold load_schema in L. destruct schema_arg as [|c a]; [contradiction|].
      destruct (w_files w (locate (c :: a))) as [[|text]|]; [injection L as <- <-; split; [reflexivity|]; split; [reflexivity | discriminate]| |
        injection L as <- <-; split; [reflexivity|]; split; [reflexivity | discriminate]].
      destruct (schema_from_text _ _ _ _ _); [discriminate|]. injection L as <- <-. split; [reflexivity|]. split; [reflexivity | discriminate].
  Qed.

  (** If the program ends with an exception, then no file was touched, unless a file
      could not be written: the files before it are written. *)
  Theorem C46_raised_partial l schema_arg outdir_arg w w' e : tree (w_files w) ->
    run l schema_arg outdir_arg w = (w', Raised e) ->
    w_out w' = w_out w /\ w_err w' = w_err w /\
    (only_directories (locate outdir_arg) (w_files w) (w_files w') \/
     exists s front name text,
       reads (w_files w) schema_arg s /\ fits l s /\
       (exists back, map s_ (announced l) = map fst front ++ name :: back) /\
       code l name s = Ok text /\
       (forall n t, In (n, t) front -> code l n s = Ok t /\ w_files w' (n :: locate outdir_arg) = Some (NFile t)) /\
       ((e = IsADirectoryError /\ w_files w (name :: locate outdir_arg) = Some NDir) \/
        (e = UnicodeEncodeError /\ encodable text = false /\ w_files w' (name :: locate outdir_arg) = Some (NFile []))) /\
       forall p, (forall n, In n (map fst front ++ [name]) -> p <> n :: locate outdir_arg) ->
         w_files w' p = w_files w p \/ (above p (locate outdir_arg) /\ w_files w p = None /\ w_files w' p = Some NDir)).
  Proof.
    intros T. unfold M_Main.run. destruct (load_schema _ _ _ _ w schema_arg) as [os|[w1 r1]] eqn:L.
    2: { unfold load_schema in L. destruct schema_arg as [|c a]; [discriminate|].
         destruct (w_files w (locate (c :: a))) as [[|text]|]; [injection L as <- <-; discriminate| |injection L as <- <-; discriminate].
         destruct (schema_from_text _ _ _ _ _); [discriminate|]. injection L as <- <-. intros H. injection H as <- _.
         split; [reflexivity|]. split; [reflexivity|]. left. intros p. now left. }
    destruct outdir_arg as [|c a] eqn:Ea.
    { intros H. injection H as <- _. split; [reflexivity|]. split; [reflexivity|]. left. intros p. now left. }
    rewrite <- Ea in *. clear Ea c a.
    destruct (mkdirs (w_files w) (locate outdir_arg)) as [fs|fs e'] eqn:M.
    2: { apply mkdirs_Failed in M. subst fs. intros H. injection H as <- _. split; [reflexivity|]. split; [reflexivity|]. left. intros p. now left. }
    destruct (mkdirs_Did _ _ _ M) as [M1 M2]. destruct (M2 T) as [T1 D1].
    destruct os as [s|].
    2: { intros H. injection H as <- _. split; [reflexivity|]. split; [reflexivity|]. now left. }
    apply loaded in L. intros G. apply generate_inv in G; [|exact T1 | exact D1].
    destruct G as [(errs & E & _) | [(E & _) | [(e' & E & ->) | (F & codes & C & G)]]]; try discriminate.
    - split; [reflexivity|]. split; [reflexivity|]. now left.
    - destruct G as [(fs' & _ & _ & E) | (fs' & e' & W & -> & E)]; [discriminate|]. injection E as <-. cbn [w_files with_files] in W |- *.
      split; [reflexivity|]. split; [reflexivity|]. right.
      destruct (generate_codes_Ok _ _ _ _ _ C) as [C1 C2].
      apply write_all_Failed in W; [|rewrite C1; apply filenames_distinct | exact D1].
      destruct W as (front & name & text & back & -> & W1 & W2 & W3).
      exists s, front, name, text. split; [exact L|]. split; [exact F|]. split.
      { exists (map fst back). rewrite <- filenames_announced, <- C1, map_app. reflexivity. }
      split; [apply C2, in_or_app; right; now left|]. split.
      { intros n t Hin. split; [apply C2, in_or_app; now left | now apply W1]. }
      split.
      + destruct W2 as [(A & -> & _) | (A & -> & B)]; [left | right; auto]. split; [reflexivity|].
        destruct (M1 (name :: locate outdir_arg)) as [<- | (X & _)]; [exact A|]. apply above_length in X. cbn in X. lia.
      + intros p Hp. rewrite W3; [apply M1|]. intros n t Hin. apply Hp. apply in_app_or in Hin. apply in_or_app.
        destruct Hin as [Hin | [E | []]]; [left; apply in_map_iff; exists (n, t); auto | right; left; now injection E as <-].
  Qed.

  (** ** C47 *)

  (** The line with the error is shown, and the cursor is under the erroneous
      character, also behind tabulators.  This is proved for texts without separators
      of lines other than line feeds and carriage returns; for lines of at most 120
      characters; and for positions before the end of the text, or in its last line
      if it does not end with a line feed. *)
  Theorem C47_cursor_partial text doc arg pos line col :
    unified text doc -> load doc = inr pos -> position_in doc pos line col ->
    (forall c, In c doc -> ~ In c other_separators) -> length line <= 120 -> (line <> [] \/ pos < length doc) ->
    exists under, schema_from_text re_ok load shown text arg = inr (DecodeFailed (Some (line, under ++ [94%N])) pos) /\
      length under = col /\ (forall c, In c under -> c = 32%N \/ c = 9%N) /\
      forall tab, screen tab 0 under = screen tab 0 (firstn col line).
  Proof.
    intros U Ld (before & after & -> & -> & Hc & Hl & Hb & Ha) Hsep Hlen Hne. apply unified_fun in U.
    destruct (position_numbers _ _ line col before after eq_refl eq_refl Hc Hl Hb) as [Nl Nc].
    assert (Hnth := nth_line (length before) before line after (le_n _) (no_breaks _ Hsep) Hl Hb Ha).
    exists (map (fun c => if N.eqb c 32 || N.eqb c 9 then c else 32%N) (firstn col line)). split; [|split; [|split]].
    - unfold schema_from_text. rewrite <- U, Ld, Nl. rewrite Nat.add_sub, Hnth.
      + rewrite (proj2 (Nat.leb_le _ _) Hlen), Nc. unfold cursor. rewrite Nat.add_sub. reflexivity.
      + intros E. apply app_eq_nil in E. destruct E as [-> ->]. destruct Hne as [Hne | Hne]; [now apply Hne|]. rewrite !app_length in Hne. cbn in *. lia.
    - rewrite map_length. now apply firstn_length_le.
    - intros c H. apply in_map_iff in H. destruct H as (d & <- & _). destruct (N.eqb d 32) eqn:E; [apply N.eqb_eq in E; auto|].
      destruct (N.eqb d 9) eqn:E9; [apply N.eqb_eq in E9|]; cbn; auto.
    - intros tab. apply screen_blank.
  Qed.

  (** A longer line is not shown. *)
  Theorem C47_long_line text doc arg pos line col :
    unified text doc -> load doc = inr pos -> position_in doc pos line col ->
    (forall c, In c doc -> ~ In c other_separators) -> 120 < length line ->
    schema_from_text re_ok load shown text arg = inr (DecodeFailed None pos).
  Proof.
    intros U Ld (before & after & -> & -> & Hc & Hl & Hb & Ha) Hsep Hlen. apply unified_fun in U.
    destruct (position_numbers _ _ line col before after eq_refl eq_refl Hc Hl Hb) as [Nl Nc].
    assert (Hnth := nth_line (length before) before line after (le_n _) (no_breaks _ Hsep) Hl Hb Ha).
    unfold schema_from_text. rewrite <- U, Ld, Nl, Nat.add_sub, Hnth; [now rewrite (proj2 (Nat.leb_gt _ _) Hlen)|].
    destruct line; [cbn in Hlen; lia | discriminate].
  Qed.

  (** An error at the end of a text which is empty or ends with a line feed makes the
      program fail with an [IndexError]: here for an empty file and for an opening
      brace on a line of its own. *)
  Theorem C47_end_refuted arg :
    (load [] = inr 0 -> schema_from_text re_ok load shown [] arg = inr (Py IndexError)) /\
    (load [123%N; 10%N] = inr 2 -> schema_from_text re_ok load shown [123%N; 10%N] arg = inr (Py IndexError)).
  Proof. split; intros E; unfold schema_from_text; cbn [translate N.eqb Pos.eqb]; rewrite E; reflexivity. Qed.

  (** A line separator inside a string of the first line makes the program show the
      rest of that line instead of the second line. *)
  Theorem C47_separator_refuted arg : let text := s_ "[""a" ++ [8232%N] ++ s_ "b""" ++ [10%N] ++ s_ "]]" in
    load text = inr 8 -> position_in text 8 (s_ "]]") 1 /\
    schema_from_text re_ok load shown text arg = inr (DecodeFailed (Some (s_ "b""", s_ " ^")) 8).
  Proof.
    intros text E. split.
    - exists (s_ "[""a" ++ [8232%N] ++ s_ "b""" ++ [10%N]), []. split; [reflexivity|]. split; [reflexivity|]. split; [cbn; lia|].
      split; [vm_compute; intuition discriminate|]. split; [right; exists (s_ "[""a" ++ [8232%N] ++ s_ "b"""); reflexivity | now left].
    - unfold schema_from_text. change (translate text) with text. rewrite E. vm_compute. reflexivity.
  Qed.
End Main.

(** ** Worlds *)

(** A directory with the schema, in which the code is to be generated. *)
Definition world_of (extra : list (path * node)) : world :=
  World (fun p => if path_eqb p [] then Some NDir else if path_eqb p [s_ "schema.json"] then Some (NFile (s_ "..."))
                  else match find (fun e => path_eqb p (fst e)) extra with Some e => Some (snd e) | None => None end) [] [].
Definition demo_run (v : jval) (l : lang) (w : world) : world * result :=
  run (fun _ => true) (fun _ => inl v) (fun _ => true) (fun a => [a]) (fun a => a) (fun _ n _ => Ok (n ++ s_ "!")) l (s_ "schema.json") (s_ "out") w.

Example world_tree : tree (w_files (world_of [])).
Proof.
  split; [reflexivity|]. intros n p. cbn [w_files world_of find].
  destruct (path_eqb (n :: p) []) eqn:E; [apply path_eqb_spec in E; discriminate|].
  destruct (path_eqb (n :: p) [s_ "schema.json"]) eqn:E1; [|congruence]. apply path_eqb_spec in E1. injection E1 as _ ->. reflexivity.
Qed.

(** The document with settings generates the code in each language. *)
Example demo_generated : forall l, snd (demo_run demo l (world_of [])) = Exit 0 /\
  Forall (fun n => w_files (fst (demo_run demo l (world_of []))) [n; s_ "out"] = Some (NFile (n ++ s_ "!"))) (map s_ (announced l)).
Proof. intros [| |]; split; try (vm_compute; reflexivity); repeat constructor; vm_compute; reflexivity. Qed.

(** A schema without the settings of the language: the exit code is 1, but the
    directory was made. *)
Theorem C46_outdir_made_refuted : exists w, tree (w_files w) /\ w_files w [s_ "out"] = None /\
  snd (demo_run shop Cpp w) = Exit 1 /\ w_files (fst (demo_run shop Cpp w)) [s_ "out"] = Some NDir.
Proof. exists (world_of []). split; [apply world_tree|]. split; [reflexivity|]. split; vm_compute; reflexivity. Qed.

(** A directory in the place of the last file: the program fails after it has written
    the others. *)
Theorem C46_half_written_refuted : exists w, tree (w_files w) /\ w_files w [s_ "types.h"; s_ "out"] = None /\
  snd (demo_run demo Cpp w) = Raised IsADirectoryError /\
  w_files (fst (demo_run demo Cpp w)) [s_ "types.h"; s_ "out"] = Some (NFile (s_ "types.h!")).
Proof.
  exists (world_of [([s_ "out"], NDir); ([s_ "jsoncpp.cpp"; s_ "out"], NDir)]). split.
  - split; [reflexivity|]. intros n p. cbn [w_files world_of find fst snd].
    destruct (path_eqb (n :: p) []) eqn:E; [apply path_eqb_spec in E; discriminate|].
    destruct (path_eqb (n :: p) [s_ "schema.json"]) eqn:E1; [apply path_eqb_spec in E1; injection E1 as _ ->; reflexivity|].
    destruct (path_eqb (n :: p) [s_ "out"]) eqn:E2; [apply path_eqb_spec in E2; injection E2 as _ ->; reflexivity|].
    destruct (path_eqb (n :: p) [s_ "jsoncpp.cpp"; s_ "out"]) eqn:E3; [apply path_eqb_spec in E3; injection E3 as _ ->; vm_compute; reflexivity | congruence].
  - split; [reflexivity|]. split; vm_compute; reflexivity.
Qed.

(** An error in the second line of a text, behind a tabulator. *)
Example cursor_shown :
  schema_from_text (fun _ => true) (fun _ => inr 6) (fun a => a) (s_ "{" ++ [13; 10; 9]%N ++ s_ "x: }") (s_ "p") =
  inr (DecodeFailed (Some (9%N :: s_ "x: }", 9%N :: s_ "   ^")) 6).
Proof. vm_compute. reflexivity. Qed.

Print Assumptions C46_success.
Print Assumptions C46_complete.
Print Assumptions C46_failure_partial.
Print Assumptions C46_rejected_unchanged.
Print Assumptions C46_raised_partial.
Print Assumptions C46_outdir_made_refuted.
Print Assumptions C46_half_written_refuted.
Print Assumptions C47_cursor_partial.
Print Assumptions C47_long_line.
Print Assumptions C47_end_refuted.
Print Assumptions C47_separator_refuted.
