(** Literals, comments, docstrings and indention of the generated code
    (C39-C43, C45, C52). *)
From Verif Require Import Base M_Schema M_Text S_Text P_Text P_Indent.
From Coq Require Import String Ascii List Arith NArith ZArith Bool Lia Permutation.
Import ListNotations.
Open Scope list_scope.

(** ** C39: literals with escapes *)

(** The Go literal denotes the text, provided that the text has neither NUL, nor a
    byte order mark, nor ESC; otherwise it is not a Go literal. *)
Theorem C39_go_literal_partial : forall text,
  go_literal (escaped_str text) =
  if forallb (fun c => negb (N.eqb c 0) && negb (N.eqb c 65279) && negb (N.eqb c 27)) text then Some text else None.
Proof.
  intros text. unfold go_literal, escaped_str. cbn [app go_lit]. change (34 =? 34)%N with true. cbn iota.
  change (fold_left (fun (r : str) (m : chr * str) => replace_char (fst m) (snd m) r) escapes text)
    with (esc_fold escapes text).
  destruct (forallb _ text) eqn:E.
  - rewrite go_chars_esc; [reflexivity|]. rewrite forallb_forall in E. apply Forall_forall. intros c Hc.
    apply E in Hc. apply andb_true_iff in Hc as [H1 H2]. split; [exact H1|].
    intros ->. discriminate.
  - rewrite go_chars_bad; [reflexivity|]. clear -E. induction text as [|c text IH]; [discriminate|].
    cbn [forallb] in E. apply andb_false_iff in E as [E|E]; [left|right; auto].
    apply andb_false_iff in E as [E|E]; [left; exact E|right]. destruct (N.eqb_spec c 27); [assumption|discriminate].
Qed.

Example C39_go_case : go_literal (escaped_str (s_ "say ""hi"" \d" ++ [9; 10; 233]%N)) =
  Some (s_ "say ""hi"" \d" ++ [9; 10; 233]%N).
Proof. vm_compute. reflexivity. Qed.

(** The escape character is written as an escape sequence which Go does not have. *)
Theorem C39_go_literal_refuted : exists text, ~ In 0%N text /\ go_literal (escaped_str text) = None.
Proof. exists [27%N]. split; [intros [H|[]]; discriminate|vm_compute; reflexivity]. Qed.

(** The C++ literal denotes the text if there is no NUL, and no ESC unless the compiler
    has the GNU extension. *)
Theorem C39_cpp_literal_partial : forall gnu text,
  cpp_literal gnu (escaped_str text) =
  if forallb (fun c => negb (N.eqb c 0) && (gnu || negb (N.eqb c 27))) text then Some text else None.
Proof.
  intros gnu text. unfold escaped_str. cbn [app cpp_literal]. change (34 =? 34)%N with true. cbn iota.
  change (fold_left (fun (r : str) (m : chr * str) => replace_char (fst m) (snd m) r) escapes text)
    with (esc_fold escapes text).
  destruct (forallb _ text) eqn:E.
  - rewrite cpp_chars_esc; [reflexivity|]. rewrite forallb_forall in E. apply Forall_forall. intros c Hc.
    apply E in Hc. apply andb_true_iff in Hc as [H1 H2]. split; [intros ->; discriminate|].
    destruct gnu; [left; reflexivity|right]. intros ->. discriminate.
  - rewrite cpp_chars_bad; [reflexivity|]. clear -E. induction text as [|c text IH]; [discriminate|].
    cbn [forallb] in E. apply andb_false_iff in E as [E|E]; [left|right; auto].
    apply andb_false_iff in E as [E|E].
    + left. destruct (N.eqb_spec c 0); [assumption|discriminate].
    + right. destruct gnu; [discriminate|]. destruct (N.eqb_spec c 27); [auto|discriminate].
Qed.

Example C39_cpp_case : cpp_literal false (escaped_str (s_ "C:\temp ""x""" ++ [10; 7]%N)) =
  Some (s_ "C:\temp ""x""" ++ [10; 7]%N).
Proof. vm_compute. reflexivity. Qed.

Theorem C39_cpp_literal_refuted : exists text, ~ In 0%N text /\ cpp_literal false (escaped_str text) = None.
Proof. exists [27%N]. split; [intros [H|[]]; discriminate|vm_compute; reflexivity]. Qed.

(** ** C40: literals in backticks *)

(** The expression denotes the text exactly if there is no carriage return. *)
Theorem C40_ticked_partial : forall text, ~ In 0%N text -> ~ In 65279%N text ->
  exists value, go_string_expr (ticked_str text) = Some value /\ (value = text <-> ~ In 13%N text).
Proof.
  intros text H0 Hb. eexists. split.
  - apply ticked_value. apply Forall_forall. intros c Hc. unfold go_char.
    destruct (N.eqb_spec c 0); [subst; contradiction|]. destruct (N.eqb_spec c 65279); [subst; contradiction|]. reflexivity.
  - split.
    + intros E I. rewrite <- E in I. apply filter_In in I as [_ I]. discriminate.
    + clear. intros H. induction text as [|c text IH]; [reflexivity|]. cbn [filter].
      simpl in H. destruct (N.eqb_spec c 13); [subst; tauto|]. cbn [negb]. rewrite IH by tauto. reflexivity.
Qed.

Example C40_case : go_string_expr (ticked_str (s_ "^a`b\d``$")) = Some (s_ "^a`b\d``$").
Proof. vm_compute. reflexivity. Qed.

Theorem C40_ticked_refuted : exists text, ~ In 0%N text /\ ~ In 65279%N text /\
  go_string_expr (ticked_str text) = Some (s_ "ab") /\ text <> s_ "ab".
Proof.
  exists [97; 13; 98]%N. split; [simpl; intuition discriminate|]. split; [simpl; intuition discriminate|].
  split; [vm_compute; reflexivity|discriminate].
Qed.

(** The source text as a whole is re-indented afterwards; this changes the lines inside a
    literal in backticks. *)
Theorem C40_reindented_refuted : exists text value,
  go_string_expr (ticked_str text) = Some text /\
  go_string_expr (reindent (ticked_str text) 0 [9%N]) = Some value /\ value <> text.
Proof.
  exists (s_ "a" ++ [10%N] ++ s_ "    b"), [97; 10; 9; 98]%N.
  split; [vm_compute; reflexivity|]. split; [vm_compute; reflexivity|discriminate].
Qed.

(** ** C41: comments *)

(** Every line of the comment is the marker, followed by a blank and the line of the
    text unless that consists of white space only. *)
Theorem C41_comment_lines : forall marker text, text <> [] -> ~ In 10%N marker ->
  Forall2 (fun line out =>
             (out = marker /\ forall c, In c line -> is_space c = true) \/ out = marker ++ s_ " " ++ line)
          (splitlines text) (split_on 10 (comment marker text)).
Proof.
  intros marker text Ht Hm. rewrite comment_lines.
  assert (Hn : splitlines text <> []) by (apply splitlines_nonempty; exact Ht).
  assert (Hb : forall l, In l (splitlines text) -> ~ In 10%N l).
  { intros l Hl I. pose proof (splitlines_no_break text l 10%N Hl I). discriminate. }
  revert Hn Hb. generalize (splitlines text) as ls. clear text Ht. intros ls Hn Hb.
  assert (Hc : forall l, In l ls -> ~ In 10%N (cline marker l)).
  { intros l Hl I. unfold cline in I. destruct (blank l); [contradiction|]. rewrite !in_app_iff in I.
    destruct I as [I|[[I|[]]|I]]; [contradiction|discriminate|]. exact (Hb l Hl I). }
  assert (K : forall ls : list str, ls <> [] -> (forall l, In l ls -> ~ In 10%N l) -> split_on 10 (join [10%N] ls) = ls).
  { clear. assert (P : forall l r, ~ In 10%N l -> split_on 10 (l ++ 10%N :: r) = l :: split_on 10 r).
    { induction l as [|c l IH]; intros r H; [reflexivity|]. simpl in H. cbn [app split_on].
      destruct (N.eqb_spec c 10); [subst; tauto|]. rewrite IH by tauto. reflexivity. }
    assert (Q : forall l, ~ In 10%N l -> split_on 10 l = [l]) by (intros l H; apply split_on_id; exact H).
    induction ls as [|l ls IH]; intros Hn H; [congruence|]. destruct ls as [|l2 ls].
    - cbn [join]. apply Q. apply H. left. reflexivity.
    - change (join [10%N] (l :: l2 :: ls)) with (l ++ 10%N :: join [10%N] (l2 :: ls)).
      rewrite P by (apply H; left; reflexivity). rewrite IH; [reflexivity|discriminate|].
      intros x Hx. apply H. right. exact Hx. }
  rewrite K.
  - clear. induction ls as [|l ls IH]; constructor; [|exact IH]. unfold cline. destruct (blank l) eqn:E; [left|right; reflexivity].
    split; [reflexivity|]. apply forallb_forall. exact E.
  - intros E. apply map_eq_nil in E. congruence.
  - intros x Hx. apply in_map_iff in Hx as (l & <- & Hl). auto.
Qed.

Example C41_lines_case : split_on 10 (comment (s_ "//") (s_ "first" ++ [13%N] ++ [10%N] ++ s_ "second")) =
  [s_ "// first"; s_ "// second"].
Proof. vm_compute. reflexivity. Qed.

(** The comment hides the text and nothing else: Python (marker [#]) and Go (marker [//]). *)
Theorem C41_comment_python : forall text code fuel, text <> [] ->
  starts_with (s_ "#") code = false -> length (splitlines text) < fuel ->
  uncomment fuel (s_ "#") py_eol false (comment (s_ "#") text ++ 10%N :: code) = code.
Proof.
  intros text code fuel Ht Hc Hf. apply comment_hidden; auto; try discriminate.
  - unfold py_eol. intros c H. apply orb_true_iff in H as [H|H]; apply N.eqb_eq in H; subst; reflexivity.
  - intros c [<-|[]]. split; [reflexivity|discriminate].
Qed.

Theorem C41_comment_go : forall text code fuel, text <> [] ->
  starts_with (s_ "//") code = false -> length (splitlines text) < fuel ->
  uncomment fuel (s_ "//") c_eol false (comment (s_ "//") text ++ 10%N :: code) = code.
Proof.
  intros text code fuel Ht Hc Hf. apply comment_hidden; auto; try discriminate.
  - unfold c_eol. intros c H. apply N.eqb_eq in H; subst; reflexivity.
  - intros c [<-|[<-|[]]]; (split; [reflexivity|discriminate]).
Qed.

Example C41_go_case :
  uncomment 5 (s_ "//") c_eol false
    (comment (s_ "//") (s_ "one" ++ [13%N] ++ s_ "*/ two" ++ [10; 10]%N ++ s_ "x()\") ++ 10%N :: s_ "var a int") = s_ "var a int".
Proof. vm_compute. reflexivity. Qed.

(** C++: provided that the last line of the text does not end with a backslash. *)
Theorem C41_comment_cpp_partial : forall text code fuel, text <> [] ->
  starts_with (s_ "//") code = false -> length (splitlines text) < fuel ->
  (forall a, last (splitlines text) [] <> a ++ [92%N]) ->
  uncomment fuel (s_ "//") c_eol true (comment (s_ "//") text ++ 10%N :: code) = code.
Proof.
  intros text code fuel Ht Hc Hf Hl. apply comment_hidden; auto.
  - unfold c_eol. intros c H. apply N.eqb_eq in H; subst; reflexivity.
  - intros c [<-|[<-|[]]]; (split; [reflexivity|discriminate]).
Qed.

Example C41_cpp_case :
  uncomment 4 (s_ "//") c_eol true
    (comment (s_ "//") (s_ "one \" ++ [10%N] ++ s_ "two") ++ 10%N :: s_ "int a;") = s_ "int a;".
Proof. vm_compute. reflexivity. Qed.

(** Otherwise the following line of code disappears. *)
Theorem C41_comment_cpp_refuted : exists text code, text <> [] /\ starts_with (s_ "//") code = false /\
  uncomment 3 (s_ "//") c_eol true (comment (s_ "//") text ++ 10%N :: code) = s_ "int b;" /\
  code = s_ "int a;" ++ [10%N] ++ s_ "int b;".
Proof.
  exists (s_ "a path in C:\"), (s_ "int a;" ++ [10%N] ++ s_ "int b;").
  split; [discriminate|]. split; [reflexivity|]. split; [vm_compute; reflexivity|reflexivity].
Qed.

(** ** C42: docstrings *)

(** The docstring denotes the text, between line feeds if it has several lines. *)
Theorem C42_docstring_partial : forall text, text <> [] -> ~ In 0%N text -> ~ In 13%N text ->
  (length (splitlines text) = 1 -> forall a, text <> a ++ [34%N] /\ text <> a ++ [92%N]) ->
  py_docstring (docstring text) =
  Some (if length (splitlines text) =? 1 then text else 10%N :: text ++ [10%N]).
Proof.
  intros text Ht H0 H13 He.
  assert (Hn : splitlines text <> []) by (apply splitlines_nonempty; exact Ht).
  destruct (Nat.eqb_spec (length (splitlines text)) 1) as [E|E].
  - rewrite docstring_single by exact E. specialize (He E).
    apply doc_value; auto; intros a; apply He.
  - rewrite docstring_multi.
    + apply doc_value.
      * intros [H|H]; [discriminate|]. apply in_app_iff in H as [H|[H|[]]]; [contradiction|discriminate].
      * intros [H|H]; [discriminate|]. apply in_app_iff in H as [H|[H|[]]]; [contradiction|discriminate].
      * intros a Ea. rewrite app_comm_cons in Ea. apply snoc_last in Ea. discriminate.
      * intros a Ea. rewrite app_comm_cons in Ea. apply snoc_last in Ea. discriminate.
    + destruct (splitlines text) as [|x [|y l]]; [congruence|simpl in E; congruence|simpl; lia].
Qed.

Example C42_single_case : py_docstring (docstring (s_ "Match \d and """"""quotes"""""".")) =
  Some (s_ "Match \d and """"""quotes"""""".").
Proof. vm_compute. reflexivity. Qed.
Example C42_multi_case : py_docstring (docstring (s_ "Match \d" ++ [10%N] ++ s_ "or ""x""")) =
  Some ([10%N] ++ s_ "Match \d" ++ [10%N] ++ s_ "or ""x""" ++ [10%N]).
Proof. vm_compute. reflexivity. Qed.

(** A single line ending with a quote, or with a backslash, gives a broken literal, and a
    carriage return is changed. *)
Theorem C42_docstring_refuted :
  py_docstring (docstring (s_ "Say ""hi""")) = None /\
  py_docstring (docstring (s_ "Stored in C:\")) = None /\
  py_docstring (docstring [97; 13; 98]%N) = Some [10; 97; 10; 98; 10]%N.
Proof. vm_compute. auto. Qed.

(** ** C43: re-indention *)

(** Apart from blanks at the starts of lines the text stays the same. *)
Theorem C43_contents_kept : forall text level indention,
  Forall indent_char indention -> unindented (reindent text level indention) = unindented text.
Proof. exact reindent_unindented. Qed.

(** And these are as documented: the margin is removed, every 4 spaces become one
    indention, and every line gets the level. *)
Theorem C43_indention : forall text level indention,
  exists lines margin outs,
    lf_lines text lines /\ is_margin margin lines /\
    Forall2 (reindented_lf_line level indention margin) lines outs /\
    reindent text (Z.of_nat level) indention = concat outs.
Proof. exact reindent_lines. Qed.

Example C43_case :
  reindent (s_ "    a:" ++ [10%N] ++ s_ "          b" ++ [10%N] ++ s_ "  " ++ [10%N] ++ s_ "    c") 1 [9%N] =
  [9%N] ++ s_ "a:" ++ [10%N] ++ [9; 9]%N ++ s_ "  b" ++ [10; 9; 10; 9]%N ++ s_ "c".
Proof. vm_compute. reflexivity. Qed.

(** ** C45: the order of constructor arguments *)

Theorem C45_order_by_optional : forall ps,
  Permutation ps (order_by_optional ps) /\
  (exists required optional, order_by_optional ps = required ++ optional /\
     Forall (fun p => p_optional p = false) required /\ Forall (fun p => p_optional p = true) optional) /\
  filter p_optional (order_by_optional ps) = filter p_optional ps /\
  filter (fun p => negb (p_optional p)) (order_by_optional ps) = filter (fun p => negb (p_optional p)) ps.
Proof.
  intros ps. unfold order_by_optional. rewrite sorted_by_filter.
  split; [apply filter_perm|]. split; [|split].
  - eexists. eexists. split; [reflexivity|]. split; [|apply filter_all].
    apply Forall_forall. intros p Hp. apply filter_In in Hp as [_ Hp]. destruct (p_optional p); [discriminate|reflexivity].
  - rewrite filter_app. assert (filter p_optional (filter (fun y => negb (p_optional y)) ps) = []) as ->.
    { induction ps as [|p ps IH]; [reflexivity|]. cbn [filter]. destruct (p_optional p) eqn:E; cbn [negb]; [exact IH|].
      cbn [filter]. rewrite E. exact IH. }
    induction ps as [|p ps IH]; [reflexivity|]. cbn [app filter]. destruct (p_optional p) eqn:E; [|exact IH].
    cbn [filter]. rewrite E. f_equal. exact IH.
  - rewrite filter_app. assert (filter (fun y => negb (p_optional y)) (filter p_optional ps) = []) as ->.
    { induction ps as [|p ps IH]; [reflexivity|]. cbn [filter]. destruct (p_optional p) eqn:E; cbn [negb]; [|exact IH].
      cbn [filter]. rewrite E. exact IH. }
    rewrite app_nil_r.
    induction ps as [|p ps IH]; [reflexivity|]. cbn [filter]. destruct (p_optional p) eqn:E; cbn [negb]; [exact IH|].
    cbn [filter]. rewrite E. cbn [negb]. f_equal. exact IH.
Qed.

Example C45_case :
  let p n o := Prop_ n n TBool [] n o in
  map p_name (order_by_optional [p (s_ "a") true; p (s_ "b") false; p (s_ "c") true; p (s_ "d") false]) =
  [s_ "b"; s_ "d"; s_ "a"; s_ "c"].
Proof. reflexivity. Qed.

(** ** C52: literals of patterns *)

(** Python, patterns without quotes: the literal denotes the pattern. *)
Theorem C52_python_pattern_partial : forall p k,
  (forall c, In c p -> c <> 0%N /\ c <> 10%N /\ c <> 13%N /\ c <> 39%N) -> (forall a, p <> a ++ [92%N]) ->
  py_raw_literal (py_pattern (p ++ repeat 92%N (2 * k))) = Some (p ++ repeat 92%N (2 * k)).
Proof.
  intros p k Hp He. unfold py_raw_literal, py_pattern. rewrite py_newlines_id.
  - assert (starts_with (s_ "r'") (s_ "r'" ++ (p ++ repeat 92%N (2 * k)) ++ s_ "'") = true) as ->
      by (apply starts_with_app; eauto).
    change (skipn 2 (s_ "r'" ++ (p ++ repeat 92%N (2 * k)) ++ s_ "'")) with ((p ++ repeat 92%N (2 * k)) ++ [39%N]).
    change (s_ "'") with [39%N]. rewrite <- app_assoc.
    rewrite (py_raw_pattern (length p)); [reflexivity| |lia|exact He].
    intros c Hc. apply Hp in Hc. tauto.
  - intros I. rewrite !in_app_iff in I. destruct I as [I|[[I|I]|I]].
    + vm_compute in I. intuition discriminate.
    + apply Hp in I. tauto.
    + apply repeat_spec in I. discriminate.
    + vm_compute in I. intuition discriminate.
Qed.

Example C52_python_case : py_raw_literal (py_pattern (s_ "^[a-z]\d""+\\")) = Some (s_ "^[a-z]\d""+\\").
Proof. vm_compute. reflexivity. Qed.

(** A quote ends the literal. *)
Theorem C52_python_pattern_refuted :
  py_raw_literal (py_pattern (s_ "^it's$")) = None /\
  py_raw_literal (py_pattern (s_ "^a" ++ [10%N] ++ s_ "b$")) = None.
Proof. vm_compute. auto. Qed.

(** C++: the literal denotes the pattern exactly if that does not contain the closing
    sequence. *)
Theorem C52_cpp_pattern_partial : forall p, ~ In 0%N p ->
  (cpp_raw_literal (s_ "v0g0n") (cpp_pattern p) = Some p <-> ~ exists a b, p = a ++ s_ ")v0g0n""" ++ b).
Proof. exact cpp_pattern_value. Qed.

Example C52_cpp_case : cpp_raw_literal (s_ "v0g0n") (cpp_pattern (s_ "^(a|""b)\)v0g0n$")) =
  Some (s_ "^(a|""b)\)v0g0n$").
Proof. vm_compute. reflexivity. Qed.

Theorem C52_cpp_pattern_refuted : cpp_raw_literal (s_ "v0g0n") (cpp_pattern (s_ "(a)v0g0n""")) = None.
Proof. vm_compute. reflexivity. Qed.

Print Assumptions C39_go_literal_partial.
Print Assumptions C39_go_literal_refuted.
Print Assumptions C39_cpp_literal_partial.
Print Assumptions C39_cpp_literal_refuted.
Print Assumptions C40_ticked_partial.
Print Assumptions C40_ticked_refuted.
Print Assumptions C40_reindented_refuted.
Print Assumptions C41_comment_lines.
Print Assumptions C41_comment_python.
Print Assumptions C41_comment_go.
Print Assumptions C41_comment_cpp_partial.
Print Assumptions C41_comment_cpp_refuted.
Print Assumptions C42_docstring_partial.
Print Assumptions C42_docstring_refuted.
Print Assumptions C43_contents_kept.
Print Assumptions C43_indention.
Print Assumptions C45_order_by_optional.
Print Assumptions C52_python_pattern_partial.
Print Assumptions C52_python_pattern_refuted.
Print Assumptions C52_cpp_pattern_partial.
Print Assumptions C52_cpp_pattern_refuted.
