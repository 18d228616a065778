(** Proofs about the command-line tool. *)
From Coq Require Import String List Arith NArith ZArith Bool Lia.
From Verif Require Import Base M_Naming M_Schema M_Validate M_LangValid M_Main S_Main P_Common P_GoFormats.
Import ListNotations.
Open Scope list_scope.
Local Open Scope nat_scope.

Lemma path_eqb_spec p q : path_eqb p q = true <-> p = q.
Proof. unfold path_eqb. destruct (list_eq_dec _ p q); split; congruence. Qed.
Lemma put_same fs p n : put fs p n p = Some n.
Proof. unfold put. now rewrite (proj2 (path_eqb_spec p p) eq_refl). Qed.
Lemma put_other fs p n q : q <> p -> put fs p n q = fs q.
Proof. intros H. unfold put. destruct (path_eqb q p) eqn:E; [|reflexivity]. apply path_eqb_spec in E. contradiction. Qed.
Lemma path_dec (p q : path) : {p = q} + {p <> q}.
Proof. exact (list_eq_dec (list_eq_dec N.eq_dec) p q). Qed.

Lemma above_refl p : above p p.
Proof. now exists []. Qed.
Lemma above_cons x p q : above p q -> above p (x :: q).
Proof. intros [i ->]. now exists (x :: i). Qed.
Lemma above_inv x p q : above p (x :: q) -> p = x :: q \/ above p q.
Proof. intros [[|y i] E]; [left; now rewrite E | right]. injection E as <- ->. now exists i. Qed.
Lemma above_nil p : above p [] -> p = [].
Proof. intros [i E]. symmetry in E. now apply app_eq_nil in E. Qed.
Lemma above_length p q : above p q -> length p <= length q.
Proof. intros [i ->]. rewrite app_length. lia. Qed.

(** What exists is under directories. *)
Lemma tree_above fs p : tree fs -> fs p = Some NDir -> forall q, above q p -> fs q = Some NDir.
Proof.
  intros [Hr Ht]. induction p as [|x p IH]; intros Hp q Hq.
  - apply above_nil in Hq. now subst.
  - apply above_inv in Hq. destruct Hq as [-> | Hq]; [assumption|]. apply IH; [|assumption]. apply (Ht x). congruence.
Qed.

Lemma tree_put_dir fs x p : tree fs -> fs (x :: p) = None -> fs p = Some NDir -> tree (put fs (x :: p) NDir).
Proof.
  intros [Hr Ht] Hn Hp. split; [rewrite put_other by discriminate; exact Hr|]. intros y q H.
  destruct (path_dec q (x :: p)) as [-> | Nq]; [apply put_same|]. rewrite put_other by assumption.
  destruct (path_dec (y :: q) (x :: p)) as [E | N].
  - injection E as _ ->. exact Hp.
  - rewrite put_other in H by assumption. now apply (Ht y).
Qed.

Lemma mkdirs_Did p : forall fs fs', mkdirs fs p = Did fs' ->
  only_directories p fs fs' /\ (tree fs -> tree fs' /\ fs' p = Some NDir).
Proof.
  induction p as [|x p IH]; intros fs fs'; cbn [mkdirs].
  - destruct (fs []) as [[|t]|] eqn:E; try discriminate. intros H. injection H as <-. split; [intros q; now left|]. auto.
  - destruct (fs (x :: p)) as [[|t]|] eqn:E; try discriminate.
    { intros H. injection H as <-. split; [intros q; now left|]. auto. }
    destruct (fs p) as [[|t]|] eqn:Ep; try discriminate.
    { intros H. injection H as <-. split.
      - intros q. destruct (path_dec q (x :: p)) as [-> | N]; [right | left; now apply put_other].
        split; [apply above_refl|]. split; [assumption | apply put_same].
      - intros T. split; [now apply tree_put_dir | apply put_same]. }
    destruct (mkdirs fs p) as [fs1|] eqn:M; try discriminate. intros H. injection H as <-.
    destruct (IH fs fs1 M) as [H1 H2]. split.
    + intros q. destruct (path_dec q (x :: p)) as [-> | N].
      * right. split; [apply above_refl|]. split; [assumption | apply put_same].
      * rewrite put_other by assumption. destruct (H1 q) as [Hq | (A & B & C)]; [now left | right]. split; [now apply above_cons|]. now split.
    + intros T. destruct (H2 T) as [T1 P1]. split; [|apply put_same]. apply tree_put_dir; auto.
      destruct (H1 (x :: p)) as [Hq | (A & _ & _)]; [congruence|]. apply above_length in A. cbn in A. lia.
Qed.

Lemma mkdirs_Failed p : forall fs fs' e, mkdirs fs p = Failed fs' e -> fs' = fs.
Proof.
  induction p as [|x p IH]; intros fs fs' e; cbn [mkdirs].
  - destruct (fs []) as [[|t]|]; intros H; try discriminate; now injection H.
  - destruct (fs (x :: p)) as [[|t]|]; intros H; try discriminate; [now injection H|].
    destruct (fs p) as [[|t]|]; try discriminate; [now injection H|].
    destruct (mkdirs fs p) as [fs1|fs1 e1] eqn:M; try discriminate. injection H as <- _. eauto.
Qed.

Lemma mkdirs_works p : forall fs, tree fs -> can_make p fs -> exists fs', mkdirs fs p = Did fs'.
Proof.
  induction p as [|x p IH]; intros fs T C; cbn [mkdirs].
  - destruct T as [-> _]. eauto.
  - destruct (C (x :: p) (above_refl _)) as [E | E]; rewrite E; [|eauto].
    destruct (C p (above_cons x p p (above_refl p))) as [E' | E']; rewrite E'; [|eauto].
    destruct (IH fs T) as (fs' & ->); [|eauto]. intros q Hq. apply C. now apply above_cons.
Qed.

Section Main.
  Variable re_ok : str -> bool.
  Variable load : str -> jval + nat.
  Variable encodable : str -> bool.
  Variable locate : str -> path.
  Variable shown : str -> str.
  Variable code : lang -> str -> schema -> res str.

  Notation write_text := (write_text encodable).
  Notation write_all := (write_all encodable).

  Lemma write_text_Did fs p text fs' : write_text fs p text = Did fs' -> fs' = put fs p (NFile text) /\ encodable text = true.
  Proof.
    unfold M_Main.write_text. destruct p as [|x p]; [discriminate|]. destruct (fs p) as [[|t]|]; try discriminate.
    destruct (fs (x :: p)) as [[|t]|]; try discriminate; destruct (encodable text); intros H; try discriminate; now injection H as <-.
  Qed.

  Lemma write_text_Failed fs x p text fs' e : fs p = Some NDir -> write_text fs (x :: p) text = Failed fs' e ->
    (fs (x :: p) = Some NDir /\ e = IsADirectoryError /\ fs' = fs) \/
    (encodable text = false /\ e = UnicodeEncodeError /\ fs' = put fs (x :: p) (NFile [])).
  Proof.
    intros Hp. unfold M_Main.write_text. rewrite Hp.
    destruct (fs (x :: p)) as [[|t]|] eqn:E; [intros H; injection H as <- <-; now left| |];
      destruct (encodable text); intros H; try discriminate; injection H as <- <-; now right.
  Qed.

  Lemma not_inside x (outdir : path) : outdir <> x :: outdir.
  Proof. intros E. apply (f_equal (@length _)) in E. cbn in E. lia. Qed.

  Lemma write_all_Did outdir codes : forall fs fs', write_all fs outdir codes = Did fs' -> NoDup (map fst codes) ->
    (forall name text, In (name, text) codes -> fs' (name :: outdir) = Some (NFile text) /\ encodable text = true) /\
    (forall p, (forall name text, In (name, text) codes -> p <> name :: outdir) -> fs' p = fs p).
  Proof.
    induction codes as [|[n t] codes IH]; intros fs fs' H N; cbn [M_Main.write_all] in H.
    { injection H as <-. split; [intros ? ? [] | auto]. }
    destruct (write_text fs (n :: outdir) t) as [fs1|] eqn:E; [|discriminate]. apply write_text_Did in E. destruct E as [-> Et].
    cbn in N. apply NoDup_cons_iff in N. destruct N as [Hn N]. destruct (IH _ _ H N) as [H1 H2]. split.
    - intros name text [E | Hin]; [injection E as <- <- | now apply H1]. split; [|exact Et].
      rewrite H2; [apply put_same|]. intros name text Hin E. injection E as ->. apply Hn. apply in_map_iff. exists (name, text). auto.
    - intros p Hp. rewrite H2; [|intros name text Hin; apply (Hp name text); now right]. apply put_other. apply (Hp n t). now left.
  Qed.

  Lemma write_all_Failed outdir codes : forall fs fs' e, write_all fs outdir codes = Failed fs' e -> NoDup (map fst codes) ->
    fs outdir = Some NDir ->
    exists front name text back, codes = front ++ (name, text) :: back /\
      (forall n t, In (n, t) front -> fs' (n :: outdir) = Some (NFile t)) /\
      ((fs (name :: outdir) = Some NDir /\ e = IsADirectoryError /\ fs' (name :: outdir) = Some NDir) \/
       (encodable text = false /\ e = UnicodeEncodeError /\ fs' (name :: outdir) = Some (NFile []))) /\
      (forall p, (forall n t, In (n, t) (front ++ [(name, text)]) -> p <> n :: outdir) -> fs' p = fs p).
  Proof.
    induction codes as [|[n t] codes IH]; intros fs fs' e H N Ho; cbn [M_Main.write_all] in H; [discriminate|].
    cbn in N. apply NoDup_cons_iff in N. destruct N as [Hn N].
    destruct (write_text fs (n :: outdir) t) as [fs1|fs1 e1] eqn:E.
    - apply write_text_Did in E. destruct E as [-> Et].
      assert (Ho1 : put fs (n :: outdir) (NFile t) outdir = Some NDir) by (rewrite put_other; [exact Ho | apply not_inside]).
      destruct (IH _ _ _ H N Ho1) as (front & name & text & back & -> & H1 & H2 & H3).
      assert (Nn : name <> n) by (intros ->; apply Hn; rewrite map_app; apply in_or_app; right; now left).
      exists ((n, t) :: front), name, text, back. split; [reflexivity|]. split; [|split].
      + intros n' t' [E | Hin]; [injection E as <- <- | now apply H1]. rewrite H3; [apply put_same|].
        intros n' t' Hin E. injection E as ->. apply Hn. rewrite map_app. apply in_app_or in Hin. apply in_or_app.
        destruct Hin as [Hin | [Hin | []]]; [left | right; left; now injection Hin as -> _].
        apply in_map_iff. exists (n', t'). auto.
      + destruct H2 as [(A & B & C) | H2]; [left | right; exact H2]. split; [|now split].
        rewrite put_other in A; [exact A|]. intros E. now injection E.
      + intros p Hp. rewrite H3; [|intros n' t' Hin; apply (Hp n' t'); now right]. apply put_other. apply (Hp n t). now left.
    - injection H as -> ->. exists [], n, t, codes. split; [reflexivity|]. split; [intros ? ? []|].
      apply write_text_Failed in E; [|exact Ho]. destruct E as [(A & -> & ->) | (A & -> & ->)].
      + split; [left; auto|]. auto.
      + split; [right; split; [assumption|]; split; [reflexivity | apply put_same]|]. intros p Hp. apply put_other. apply (Hp n t). now left.
  Qed.

  Lemma write_all_works outdir codes : forall fs, fs outdir = Some NDir ->
    (forall name text, In (name, text) codes -> fs (name :: outdir) <> Some NDir /\ encodable text = true) ->
    exists fs', write_all fs outdir codes = Did fs'.
  Proof.
    induction codes as [|[n t] codes IH]; intros fs Ho H; cbn [M_Main.write_all]; [eauto|].
    destruct (H n t) as [Hd Ht]; [now left|].
    assert (E : write_text fs (n :: outdir) t = Did (put fs (n :: outdir) (NFile t))).
    { unfold M_Main.write_text. rewrite Ho, Ht. destruct (fs (n :: outdir)) as [[|]|]; try reflexivity. contradiction. }
    rewrite E. apply IH; [rewrite put_other; [exact Ho | apply not_inside]|].
    intros name text Hin. split; [|apply (H name text); now right].
    destruct (path_dec (name :: outdir) (n :: outdir)) as [-> | N]; [rewrite put_same; discriminate|].
    rewrite put_other by assumption. apply (H name text). now right.
  Qed.

  Lemma generate_codes_Ok l s names : forall codes, generate_codes code l s names = Ok codes ->
    map fst codes = names /\ forall name text, In (name, text) codes -> code l name s = Ok text.
  Proof.
    induction names as [|n names IH]; intros codes; cbn [generate_codes].
    - intros H. injection H as <-. split; [reflexivity | intros ? ? []].
    - destruct (code l n s) as [t|e] eqn:E; [|discriminate]. cbn [bind].
      destruct (generate_codes code l s names) as [cs|e] eqn:G; [|discriminate]. cbn [bind]. intros H. injection H as <-.
      destruct (IH _ eq_refl) as [H1 H2]. split; [cbn; now rewrite H1|]. intros name text [H | H]; [injection H as <- <-; exact E | now apply H2].
  Qed.
  Lemma generate_codes_works l s names : (forall n, In n names -> exists t, code l n s = Ok t) ->
    exists codes, generate_codes code l s names = Ok codes.
  Proof.
    induction names as [|n names IH]; intros H; cbn [generate_codes]; [eauto|].
    destruct (H n) as (t & ->); [now left|]. cbn [bind]. destruct IH as (cs & ->); [intros; apply H; now right|]. cbn [bind]. eauto.
  Qed.

  Lemma filenames_announced l : filenames l = map s_ (announced l).
  Proof. destruct l; reflexivity. Qed.
  Lemma filenames_distinct l : NoDup (filenames l).
  Proof. destruct l; vm_compute; repeat constructor; cbn; intuition discriminate. Qed.

  Lemma fits_ok l s : fits l s <-> validate_for l (sc_graph s) = Ok [] /\ lacks_settings l s = false.
  Proof.
    destruct l; cbn; [destruct (sc_cpp s) | destruct (sc_go s) | destruct (sc_py s)]; split; intros [A B]; split;
      try assumption; try reflexivity; try discriminate; eauto; destruct B; discriminate.
  Qed.

  (** ** Line ends *)

  Lemma translate_unified s : unified s (translate s).
  Proof.
    induction s as [|c|c d s IH1 IH2] using str_ind2; [constructor| |].
    - cbn. destruct (N.eqb c 13) eqn:E; [apply N.eqb_eq in E; subst; apply u_cr; [discriminate | constructor]|].
      apply N.eqb_neq in E. constructor; [exact E | constructor].
    - cbn [translate]. cbn [translate] in IH2. destruct (N.eqb c 13) eqn:E.
      + apply N.eqb_eq in E. subst. destruct (N.eqb d 10) eqn:D.
        * apply N.eqb_eq in D. subst. now constructor.
        * apply N.eqb_neq in D. apply u_cr; [congruence | exact IH2].
      + apply N.eqb_neq in E. constructor; assumption.
  Qed.
  Lemma unified_fun s t : unified s t -> t = translate s.
  Proof.
    intros H. induction H as [|s t H IH|s t N H IH|c s t N H IH]; [reflexivity| | |].
    - cbn. now f_equal.
    - subst. cbn. f_equal. destruct s as [|d s]; [reflexivity|]. destruct (N.eqb d 10) eqn:D; [|reflexivity].
      apply N.eqb_eq in D. subst. destruct (N s eq_refl).
    - cbn. rewrite (proj2 (N.eqb_neq c 13) N). now f_equal.
  Qed.
End Main.

(** ** Positions *)

Lemma no_breaks doc : (forall c, In c doc -> ~ In c other_separators) -> forall c, In c doc -> c <> 10%N -> is_linebreak c = false.
Proof.
  intros H c Hc N. destruct (is_linebreak c) eqn:E; [|reflexivity]. exfalso. apply existsb_exists in E. destruct E as (d & Hd & E).
  apply N.eqb_eq in E. subst d. destruct Hd as [Hd | Hd]; [congruence | now apply (H c Hc)].
Qed.

Lemma lines_lf l s acc : (forall x, In x l -> is_linebreak x = false) ->
  map fst (lines_go acc (l ++ 10%N :: s)) = (rev acc ++ l) :: map fst (lines_go [] s).
Proof.
  intros H. destruct (lines_step l 10%N s acc H eq_refl) as (t & r & -> & [-> | [E _]]); [reflexivity | discriminate].
Qed.

Lemma count_none l : ~ In 10%N l -> count_occ N.eq_dec l 10%N = 0.
Proof. intros H. now apply count_occ_not_In. Qed.

Lemma split_line (s : str) : (~ In 10%N s) \/ exists l r, s = l ++ 10%N :: r /\ ~ In 10%N l.
Proof.
  induction s as [|c s [IH | (l & r & -> & IH)]]; [left; auto| |].
  - destruct (N.eq_dec c 10) as [-> | N]; [right; exists [], s; auto | left; intros [E | E]; auto].
  - right. destruct (N.eq_dec c 10) as [-> | N]; [exists [], (l ++ 10%N :: r); auto|].
    exists (c :: l), r. split; [reflexivity|]. intros [E | E]; auto.
Qed.

Lemma nth_line n : forall before line after, length before <= n ->
  (forall c, In c (before ++ line ++ after) -> c <> 10%N -> is_linebreak c = false) -> ~ In 10%N line ->
  (before = [] \/ exists b, before = b ++ [10%N]) -> (after = [] \/ exists a, after = 10%N :: a) -> line ++ after <> [] ->
  nth_error (splitlines (before ++ line ++ after)) (count_occ N.eq_dec before 10%N) = Some line.
Proof.
  induction n as [|n IH]; intros before line after L B Hl Hb Ha Hne.
  - destruct before; [|cbn in L; lia]. clear Hb. cbn [app count_occ].
    assert (Bl : forall x, In x line -> is_linebreak x = false).
    { intros x Hx. apply B; [cbn; apply in_or_app; now left | intros ->; contradiction]. }
    destruct Ha as [-> | (a & ->)].
    + rewrite app_nil_r in *. unfold splitlines, lines_ends. rewrite lines_go_id; auto.
    + unfold splitlines, lines_ends. rewrite lines_lf by assumption. reflexivity.
  - destruct (split_line before) as [H | (l & r & -> & Hnl)].
    + destruct Hb as [-> | (b & ->)]; [|exfalso; apply H, in_or_app; right; now left].
      apply (IH [] line after); auto. cbn. lia.
    + assert (Bl : forall x, In x l -> is_linebreak x = false).
      { intros x Hx. apply B; [rewrite <- app_assoc; apply in_or_app; now left | intros ->; contradiction]. }
      unfold splitlines, lines_ends. rewrite <- app_assoc. cbn [app]. rewrite lines_lf by assumption.
      rewrite count_occ_app, count_none by assumption. cbn [plus count_occ]. destruct (N.eq_dec 10 10) as [_|]; [|congruence]. cbn [nth_error].
      apply IH; auto.
      * rewrite app_length in L. cbn in L. lia.
      * intros c Hc. apply B. rewrite <- app_assoc. apply in_or_app. right. now right.
      * destruct Hb as [Hb | (b & Hb)]; [destruct l; discriminate|].
        destruct r as [|x r]; [now left|]. right. destruct (exists_last (l := x :: r)) as (r' & y & E); [discriminate|]. rewrite E in Hb |- *.
        replace (l ++ 10%N :: r' ++ [y]) with ((l ++ 10%N :: r') ++ [y]) in Hb by (rewrite <- app_assoc; reflexivity).
        apply app_inj_tail in Hb. destruct Hb as [_ ->]. eauto.
Qed.

Lemma rfind_none s : ~ In 10%N s -> rfind 10%N s = None.
Proof.
  induction s as [|c s IH]; intros H; cbn; [reflexivity|]. rewrite IH by (intros E; apply H; now right).
  destruct (N.eqb c 10) eqn:E; [|reflexivity]. apply N.eqb_eq in E. subst. exfalso. apply H. now left.
Qed.
Lemma rfind_last b l : ~ In 10%N l -> rfind 10%N (b ++ 10%N :: l) = Some (length b).
Proof.
  intros H. induction b as [|c b IH]; cbn; [now rewrite rfind_none|]. now rewrite IH.
Qed.

Lemma position_numbers doc pos line col before after :
  doc = before ++ line ++ after -> pos = length before + col -> col <= length line -> ~ In 10%N line ->
  (before = [] \/ exists b, before = b ++ [10%N]) ->
  lineno doc pos = count_occ N.eq_dec before 10%N + 1 /\ colno doc pos = col + 1.
Proof.
  intros -> -> Hc Hl Hb.
  assert (E : firstn (length before + col) (before ++ line ++ after) = before ++ firstn col line).
  { rewrite firstn_app_2. rewrite firstn_app. replace (col - length line) with 0 by lia. cbn. now rewrite app_nil_r. }
  assert (Hf : ~ In 10%N (firstn col line)) by (intros H; apply Hl; rewrite <- (firstn_skipn col line); apply in_or_app; now left).
  unfold lineno, colno. rewrite E. split; [rewrite count_occ_app, (count_none (firstn _ _)) by assumption; lia|].
  destruct Hb as [-> | (b & ->)].
  - cbn. rewrite rfind_none by assumption. lia.
  - rewrite <- app_assoc. cbn [app]. rewrite rfind_last by assumption. rewrite app_length. cbn. lia.
Qed.

Lemma screen_blank tab s : forall from,
  screen tab from (map (fun c => if N.eqb c 32 || N.eqb c 9 then c else 32%N) s) = screen tab from s.
Proof.
  induction s as [|c s IH]; intros from; cbn [map screen]; [reflexivity|]. rewrite IH. f_equal.
  destruct (N.eqb c 32) eqn:E; [apply N.eqb_eq in E; subst; reflexivity|].
  destruct (N.eqb c 9) eqn:E9; cbn [orb]; [now rewrite E9 | reflexivity].
Qed.
